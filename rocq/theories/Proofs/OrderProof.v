(** Reading the blocks of an input file in any order. *)
From Coq Require Import String Ascii ZArith Bool Lia Permutation List.
From Verif Require Import Base.Str Base.Digits Base.Flt Base.FltText Base.FltInt.
From Verif Require Import Model.Py Model.Records Model.Write Model.Read.
From Verif Require Import Spec.Fields Spec.Values Spec.Types Spec.Layouts Spec.Rocks Spec.Flac Spec.Simple Spec.Param
  Spec.Indom Spec.Outpu Spec.Labels Spec.Mesh Spec.Incon Spec.Gener Spec.File Spec.BlockOrder Spec.Remarks.
From Verif Require Import Proofs.RecordLemmas Proofs.DictLemmas Proofs.Types Proofs.BlockTools Proofs.SimpleProof Proofs.RocksProof Proofs.FlacProof Proofs.FileProof Proofs.FileKeys.
Import ListNotations.
Local Open Scope nat_scope.

Definition block := ((str * list str) * (bool * (dict -> dict)) * list key)%type.
Definition b_kw (x : block) : str := fst (fst (fst x)).
Definition b_lines (x : block) : list str := snd (fst (fst x)).
Definition b_part (x : block) : str * list str := fst (fst x).
Definition b_step (x : block) : bool * (dict -> dict) := snd (fst x).
Definition b_keys (x : block) : list key := snd x.
Definition b_given (x : block) : bool := fst (b_step x).
Definition blocks (kws : list str) (os : list (list str)) (ss : list (bool * (dict -> dict))) (tt : list (list key)) : list block := combine (combine (combine kws os) ss) tt.
Definition run_list (l : list block) (q : dict) : dict := fold_left (fun q x => snd (b_step x) q) l q.
Definition elsewhere (kw : str) (ks : list key) : bool :=
  streqb kw ($"ELEME") || streqb kw ($"COORD") || negb (existsb (key_eqb #"elements") ks || existsb (key_eqb #"elements_order") ks).
Definition sound (ll : option nat) (p : dict) (x : block) : Prop :=
  part_ok ll p (b_kw x) (b_lines x) (b_step x) /\ (forall k q, existsb (key_eqb k) (b_keys x) = false -> dget k (snd (b_step x) q) = dget k q) /\
  local (snd (b_step x)) /\ elsewhere (b_kw x) (b_keys x) = true.
Lemma blocks_sound ll p kws : forall os ss tt, Forall2 (fun ko s => part_ok ll p (fst ko) (snd ko) s) (combine kws os) ss ->
  Forall2 (fun s ks => forall k q, existsb (key_eqb k) ks = false -> dget k (snd s q) = dget k q) ss tt -> Forall (fun s => local (snd s)) ss ->
  Forall2 (fun kw ks => elsewhere kw ks = true) kws tt -> List.length os = List.length kws ->
  Forall (sound ll p) (blocks kws os ss tt) /\ map b_kw (blocks kws os ss tt) = kws /\ map b_lines (blocks kws os ss tt) = os /\ map b_step (blocks kws os ss tt) = ss.
Proof.
  unfold blocks. induction kws as [|kw kws IH]; intros [|o os] ss tt A B C D L; cbn [List.length] in L; try discriminate L; cbn [combine] in *.
  - inversion A; subst. inversion D; subst. cbn. auto.
  - inversion A as [|? s ? ss' A1 A2]; subst. inversion B as [|? ks ? tt' B1 B2]; subst. apply Forall_cons_iff in C as [C1 C2]. inversion D as [|? ? ? ? D1 D2]; subst.
    destruct (IH os ss' tt' A2 B2 C2 D2 ltac:(lia)) as (X1 & X2 & X3 & X4). cbn [combine map].
    split; [constructor; auto; split; auto|]. rewrite X2, X3, X4. auto.
Qed.

(** ** Remarks *)
Definition notes (ls : list str) : Prop := remarks ls.
Lemma rstrip_cons c t : is_space c = false -> rstrip (c :: t) = c :: rstrip t.
Proof.
  intros C. unfold rstrip. cbn [rev].
  assert (X : forall a, lstrip (a ++ [c]) = lstrip a ++ [c]).
  { induction a as [|x a IH]; cbn [app lstrip]; [now rewrite C|]. destruct (is_space x); auto. }
  rewrite X, rev_app_distr. reflexivity.
Qed.
Lemma strip_cons c t : is_space c = false -> strip (c :: t) = c :: rstrip t.
Proof. intros C. unfold strip. cbn [lstrip]. rewrite C. now apply rstrip_cons. Qed.
Lemma not_dec c u : number_start c = false -> is_inf_name (c :: u) = false /\ is_nan_name (c :: u) = false /\ parse_udec (c :: u) = None.
Proof.
  intros N. split; [|split].
  1, 2: destruct c as [[] [] [] [] [] [] [] []]; try discriminate N; reflexivity.
  unfold parse_udec. unfold number_start in N. apply orb_false_iff in N as [N1 N2]. cbn [span_digits]. rewrite N1. cbn [list_ascii_of_string existsb] in N2.
  apply orb_false_iff in N2 as [N2 _]. rewrite N2. reflexivity.
Qed.
Lemma no_underscores_cons c t : is_underscore c = false -> match no_underscores (c :: t) with Some s => exists t', s = c :: t' | None => True end.
Proof.
  intros U. unfold no_underscores. destruct (existsb is_underscore (c :: t)).
  - destruct (underscores_ok false (c :: t)); auto. cbn [filter]. rewrite U. cbn [negb]. eauto.
  - eauto.
Qed.
Lemma no_underscores_two c d t : is_underscore c = false -> is_underscore d = false -> match no_underscores (c :: d :: t) with Some s => exists t', s = c :: d :: t' | None => True end.
Proof.
  intros U V. unfold no_underscores. destruct (existsb is_underscore (c :: d :: t)).
  - destruct (underscores_ok false (c :: d :: t)); auto. cbn [filter]. rewrite U, V. cbn [negb]. eauto.
  - eauto.
Qed.
Lemma number_underscore c : number_start c = false -> is_underscore c = false.
Proof. destruct c as [[] [] [] [] [] [] [] []]; intros N; try discriminate N; reflexivity. Qed.
Lemma sign_facts c : sign_char c = true -> is_space c = false /\ is_underscore c = false /\ exists g, forall t, split_sign (c :: t) = (g, t).
Proof. destruct c as [[] [] [] [] [] [] [] []]; intros N; try discriminate N; (split; [reflexivity|split; [reflexivity|eexists; intros; reflexivity]]). Qed.
Lemma unsigned c t : sign_char c = false -> split_sign (c :: t) = (false, c :: t).
Proof. destruct c as [[] [] [] [] [] [] [] []]; intros N; try discriminate N; reflexivity. Qed.
Lemma word_float s : wordy s = true -> parse_float s = None.
Proof.
  unfold wordy, parse_float. destruct s as [|c t]; [discriminate|]. destruct (sign_char c) eqn:G.
  - destruct (sign_facts c G) as (C & U & g & SS). destruct t as [|d t]; [discriminate|]. unfold word_start. intros W. apply andb_true_iff in W as [D N].
    apply negb_true_iff in D, N. rewrite strip_cons, rstrip_cons by assumption.
    pose proof (no_underscores_two c d (rstrip t) U (number_underscore _ N)) as X. destruct (no_underscores _) as [s|]; auto. destruct X as (t' & ->).
    rewrite SS. destruct (not_dec d t' N) as (-> & -> & ->). reflexivity.
  - unfold word_start. intros W. apply andb_true_iff in W as [D N]. apply negb_true_iff in D, N. rewrite strip_cons by assumption.
    pose proof (no_underscores_cons c (rstrip t) (number_underscore _ N)) as X. destruct (no_underscores _) as [s|]; auto. destruct X as (t' & ->).
    rewrite unsigned by exact G. destruct (not_dec c t' N) as (-> & -> & ->). reflexivity.
Qed.
Lemma word_take s n : wordy s = true -> wordy (firstn n s ++ "e"%char :: skipn n s) = true.
Proof.
  intros W. destruct n as [|[|n]]; [reflexivity| |]; destruct s as [|c [|d t]]; try discriminate W; cbn [firstn skipn app wordy] in *; try exact W.
  1, 2: destruct (sign_char c); [reflexivity|exact W].
  - destruct (sign_char c); [discriminate W|exact W].
Qed.
Lemma word_str2float s : wordy s = true -> str2float s = Err ValueError.
Proof. intros W. unfold str2float. rewrite word_float by exact W. unfold drop_last, last_n. rewrite word_float by now apply word_take. reflexivity. Qed.
Lemma word_strip s n : wordy s = true -> wordy (strip (firstn (S (S n)) s)) = true.
Proof.
  destruct s as [|c t]; [discriminate|]. unfold wordy at 1. destruct (sign_char c) eqn:G.
  - destruct (sign_facts c G) as (C & _). destruct t as [|d t]; [discriminate|]. intros W. pose proof W as W'. unfold word_start in W. apply andb_true_iff in W as [D N]. apply negb_true_iff in D.
    cbn [firstn]. rewrite strip_cons, rstrip_cons by assumption. cbn [wordy]. rewrite G. exact W'.
  - intros W. pose proof W as W'. unfold word_start in W. apply andb_true_iff in W as [D N]. apply negb_true_iff in D.
    cbn [firstn]. rewrite strip_cons by assumption. cbn [wordy]. rewrite G. exact W'.
Qed.
Lemma word_record l t fmt n : wordy l = true -> tok_w t = S (S n) -> tok_t t = "e"%char -> read_record l (t :: fmt) = Err ValueError.
Proof.
  intros W T E. cbn [read_record]. rewrite T. unfold read_field. rewrite E. change (Ascii.eqb "e" "S") with false. cbv iota.
  pose proof (word_strip l n W) as X. destruct (strip _) as [|c s] eqn:S; [discriminate X|]. unfold convert. cbn [Ascii.eqb orb].
  change (Ascii.eqb "e" "s" || Ascii.eqb "e" "S") with false. change (Ascii.eqb "e" "d") with false. change (Ascii.eqb "e" "f" || Ascii.eqb "e" "e") with true. cbv iota.
  rewrite word_str2float by exact X. reflexivity.
Qed.
Lemma word_blank l : wordy l = true -> blank l = false.
Proof.
  intros W. unfold blank. destruct l as [|c t]; [discriminate W|]. assert (C : is_space c = false).
  { cbn [wordy] in W. destruct (sign_char c) eqn:G; [apply (sign_facts c G)|]. apply andb_true_iff in W as [W _]. now apply negb_true_iff. }
  now rewrite strip_cons.
Qed.
Lemma notes_follow ls rest : notes ls -> follows rest -> follows (ls ++ rest).
Proof.
  intros (P & F) R. destruct ls as [|l ls]; auto. cbn [app]. apply orb_true_iff in F as [F|F].
  - right. exists l, (ls ++ rest). split; auto.
  - left. split; (exists l, (ls ++ rest); split; [reflexivity|split; [now apply word_blank|]]); eapply word_record; try exact F; reflexivity.
Qed.
Lemma plain_skipped ll l q r : plain_line l -> read_block ll l q r = Ok (true, q, r).
Proof.
  intros (_ & X). unfold read_block. assert (Y : forallb (fun kw => negb (startswith kw l)) block_names = true).
  { apply forallb_forall. intros kw I. now rewrite X. }
  unfold block_names in Y. cbn [forallb] in Y. clear X.
  repeat (apply andb_true_iff in Y as [?X Y]; apply negb_true_iff in X; rewrite X; clear X). reflexivity.
Qed.
Lemma notes_run ll q ls rest r : notes ls -> Run ll q rest r -> Run ll q (ls ++ rest) r.
Proof.
  intros (P & _) R. induction P as [|l ls H P IH]; auto. cbn [app]. eapply Run_step; [now apply plain_skipped|auto|exact IH].
Qed.
Lemma notes_good ls : notes ls -> Forall good_line ls.
Proof.
  intros (P & _). eapply Forall_impl; [|exact P]. intros l ((b & -> & N) & _). exists b. split; auto. unfold one_line. apply forallb_forall. intros c I.
  apply negb_true_iff. destruct (Ascii.eqb c nl) eqn:E; auto. apply Ascii.eqb_eq in E as ->. contradiction.
Qed.

(** ** Reading *)
Definition Phase (p : dict) (e : bool) (q : dict) : Prop := Inv p q /\ (e = true -> COORD_pre p q).
Fixpoint ordered (e : bool) (kws : list str) : Prop :=
  match kws with
  | [] => True
  | kw :: r => (kw = $"COORD" -> e = true) /\ ordered (if streqb kw ($"ELEME") then true else if streqb kw ($"COORD") then false else e) r
  end.
Lemma ordered_none kws : ~ In ($"COORD") kws -> forall e, ordered e kws.
Proof.
  induction kws as [|k m IH]; intros N e; cbn [ordered]; auto. split; [intros ->; elim N; now left|]. apply IH. intros J. apply N. now right.
Qed.
Definition noted := (block * list str)%type.
Definition n_lines (x : noted) : list str := b_lines (fst x) ++ snd x.
Lemma phase_run ll p (l : list noted) : Forall (sound ll p) (map fst l) -> Forall (fun x => b_given x = true) (map fst l) -> Forall notes (map snd l) ->
  filled (val #"elements" p) = true \/ ~ In ($"COORD") (map b_kw (map fst l)) -> forall e, ordered e (map b_kw (map fst l)) ->
  forall q rest r, Phase p e q -> follows rest -> Run ll (run_list (map fst l) q) rest r -> follows (concat (map n_lines l) ++ rest) /\ Run ll q (concat (map n_lines l) ++ rest) r.
Proof.
  induction l as [|[x n] l IH]; cbn [map fst snd]; intros SD G NT EC e O q rest r (I1 & I2) FO R; [split; auto|].
  apply Forall_cons_iff in SD as [(PO & T & LO & EW) SD].
  apply Forall_cons_iff in G as [G1 G2]. apply Forall_cons_iff in NT as [N1 N2]. cbn [map ordered] in O. destruct O as (O1 & O2). unfold run_list in R. cbn [fold_left] in R. fold (run_list (map fst l) (snd (b_step x) q)) in R.
  cbn [concat]. unfold n_lines at 1 3. cbn [fst snd]. rewrite <- !app_assoc.
  destruct x as [[[kw o] [b f]] ks]. unfold b_given, b_kw, b_lines, b_step, b_keys in *. cbn [fst snd] in *. subst b. destruct PO as (OP & PE & PC & PP).
  assert (ON : on (true, f) = f) by reflexivity.
  assert (EC' : filled (val #"elements" p) = true \/ ~ In ($"COORD") (map b_kw (map fst l))) by (destruct EC as [EC|EC]; [now left|right; intros J; apply EC; now right]).
  destruct (streqb kw ($"ELEME")) eqn:E1; [apply streqb_eq in E1|].
  - destruct (PE E1) as (H1 & H2 & H3 & H4).
    destruct EC' as [EC'|EC'].
    + destruct (IH SD G2 N2 (or_introl EC') true O2 (f q) rest r) as (A & B); auto.
      { destruct (H3 q I1) as (X & Y). split; [exact X|]. intros _. now apply Y. }
      split; [apply heads_follows; auto; now apply notes_follow|]. apply H4; auto; [now apply notes_follow|now apply notes_run].
    + assert (O3 : ordered false (map b_kw (map fst l))).
      { exact (ordered_none _ EC' _). }
      destruct (IH SD G2 N2 (or_intror EC') false O3 (f q) rest r) as (A & B); auto.
      { destruct (H3 q I1) as (X & _). split; [exact X|discriminate]. }
      split; [apply heads_follows; auto; now apply notes_follow|]. apply H4; auto; [now apply notes_follow|now apply notes_run].
  - destruct (streqb kw ($"COORD")) eqn:E2; [apply streqb_eq in E2|].
    + destruct (PC E2) as (H1 & H2 & H3 & H4). specialize (O1 E2). assert (I3 : Inv2 p q) by (split; [exact I1|intros _; now apply I2]).
      destruct (IH SD G2 N2 EC' false O2 (f q) rest r) as (A & B); auto.
      { split; [exact (H3 q I3)|discriminate]. }
      split; [apply heads_follows; auto; now apply notes_follow|]. apply H4; auto; [now apply notes_follow|now apply notes_run].
    + assert (X1 : kw <> $"ELEME") by (intros ->; discriminate E1). assert (X2 : kw <> $"COORD") by (intros ->; discriminate E2). destruct (PP X1 X2) as (H1 & H2 & H3 & H4).
      unfold elsewhere in EW. rewrite E1, E2 in EW. cbn [orb] in EW. apply negb_true_iff, orb_false_iff in EW as [W1 W2].
      destruct (IH SD G2 N2 EC' e O2 (f q) rest r) as (A & B); auto.
      { split; [exact (H3 q I1)|]. intros ->. specialize (I2 eq_refl). unfold COORD_pre in *. rewrite !T by assumption. exact I2. }
      split; [apply heads_follows; auto; now apply notes_follow|]. apply H4; auto; [now apply notes_follow|now apply notes_run].
Qed.

(** ** The entries *)
Definition at_k (k : key) (l : list block) : list block := filter (fun x => existsb (key_eqb k) (b_keys x)) l.
Lemma run_at ll p k l : Forall (sound ll p) l -> forall q q', dget k q = dget k q' -> dget k (run_list l q) = dget k (run_list (at_k k l) q').
Proof.
  induction 1 as [|x l (_ & T & LO & _) F IH]; intros q q' E; cbn [at_k filter]; auto. unfold run_list at 1. cbn [fold_left]. fold (run_list l (snd (b_step x) q)).
  destruct (existsb (key_eqb k) (b_keys x)) eqn:X.
  - unfold run_list at 2. cbn [fold_left]. fold (run_list (filter (fun x => existsb (key_eqb k) (b_keys x)) l) (snd (b_step x) q')). apply IH. now apply LO.
  - apply IH. now rewrite T.
Qed.
Lemma perm_filter {A} (f : A -> bool) l l' : Permutation l l' -> Permutation (filter f l) (filter f l').
Proof. induction 1 as [|x l l' P IH|x y l|l m n P IH P' IH']; cbn [filter]; [constructor|destruct (f x); auto|destruct (f x), (f y); auto; constructor|etransitivity; eauto]. Qed.
Lemma filter_swap {A} (f g : A -> bool) l : filter f (filter g l) = filter g (filter f l).
Proof. induction l as [|x l IH]; [reflexivity|]. cbn [filter]. destruct (f x) eqn:F, (g x) eqn:G; cbn [filter]; rewrite ?F, ?G, IH; reflexivity. Qed.
Lemma few {A} (f : A -> bool) (g : A -> bool) l l' : List.length (filter f l) <= 1 -> Permutation (filter g l) l' -> filter f l' = filter f (filter g l).
Proof.
  intros L P. apply (perm_filter f) in P. rewrite filter_swap in *. destruct (filter f l) as [|x [|y r]] eqn:E; cbn [List.length] in L; [| |lia]; cbn [filter] in *.
  - now apply Permutation_nil in P.
  - destruct (g x); [now apply Permutation_length_1_inv in P|now apply Permutation_nil in P].
Qed.
Lemma two {A} (f : A -> bool) (g : A -> bool) l l' x y : filter f l = [x; y] -> Permutation (filter g l) l' -> filter f l' = filter f (filter g l) \/ g x = true /\ g y = true /\ filter f (filter g l) = [x; y] /\ filter f l' = [y; x].
Proof.
  intros L P. apply (perm_filter f) in P. rewrite filter_swap in *. rewrite L in *. cbn [filter] in *.
  destruct (g x), (g y); [|left; now apply Permutation_length_1_inv in P|left; now apply Permutation_length_1_inv in P|left; now apply Permutation_nil in P].
  apply Permutation_length_2_inv in P as [-> | ->]; auto.
Qed.
Lemma first_ordered kws : NoDup kws -> forall e, (forall a b, kws = a ++ $"COORD" :: b -> e = true \/ In ($"ELEME") a) -> ordered e kws.
Proof.
  induction 1 as [|kw r NI ND IH]; intros e H; cbn [ordered]; auto. split.
  - intros ->. destruct (H [] r eq_refl) as [X|[]]; exact X.
  - apply IH. intros a b E. destruct (streqb kw ($"ELEME")) eqn:E1; [now left|]. destruct (streqb kw ($"COORD")) eqn:E2.
    + apply streqb_eq in E2. subst. elim NI. apply in_or_app. right. now left.
    + destruct (H (kw :: a) b) as [X|[X|X]]; [now rewrite E|now left| |now right]. subst kw. discriminate E1.
Qed.
Lemma filter_flags ll p l : Forall (sound ll p) l -> concat (map b_lines l) = concat (map b_lines (filter b_given l)).
Proof.
  induction 1 as [|x l ((O & _) & _) F IH]; [reflexivity|]. cbn [map concat filter]. unfold opens in O. fold (b_given x) in O. destruct (b_given x); cbn [map concat]; rewrite IH; [reflexivity|]. now rewrite O.
Qed.
Lemma run_given l q : run_steps (map b_step l) q = run_list (filter b_given l) q.
Proof.
  unfold run_steps, run_list. revert q. induction l as [|x l IH]; intros q; [reflexivity|]. cbn [map fold_left filter]. fold (b_given x). destruct (b_given x); cbn [fold_left]; apply IH.
Qed.

Lemma same_refl R v : deep R v v. Proof. now left. Qed.
Lemma disjoint_updates d u w : keys_unique u -> keys_unique w -> (forall k, dget k u = None \/ dget k w = None) -> same_dict eq (dupdate (dupdate d u) w) (dupdate (dupdate d w) u).
Proof.
  intros U W D k. rewrite !dget_dupdate by assumption. destruct (D k) as [E|E]; rewrite E; [destruct (dget k w)|destruct (dget k u)]; destruct (dget k d); auto.
Qed.
Lemma dget_merge k u rq : dget k (merge_rocks u rq) = match dget k rq with Some v => Some (match dget k u with Some (PDict m) => PDict (dupdate (entries v) m) | _ => v end) | None => None end.
Proof.
  unfold merge_rocks. induction rq as [|[k' v] rq IH]; [reflexivity|]. cbn [map dget fst snd]. destruct (key_eqb k k') eqn:E; [|exact IH]. apply key_eqb_eq in E. now subst.
Qed.
Lemma merge_swap u w rq : (forall n m m', dget n u = Some (PDict m) -> dget n w = Some (PDict m') -> keys_unique m /\ keys_unique m' /\ forall k, dget k m = None \/ dget k m' = None) ->
  same_dict (deep eq) (merge_rocks w (merge_rocks u rq)) (merge_rocks u (merge_rocks w rq)).
Proof.
  intros H k. rewrite !dget_merge. destruct (dget k rq) as [v|]; [|exact Logic.I]. specialize (H k). destruct (dget k u) as [[]|], (dget k w) as [[]|]; try apply same_refl.
  right. eexists. eexists. split; [reflexivity|]. split; [reflexivity|]. cbn [entries]. destruct (H d d0 eq_refl eq_refl) as (A & B & C). now apply disjoint_updates.
Qed.
Lemma keys_only (d : dict) ks k : Forall (fun kv => In (fst kv) ks) d -> ~ In k ks -> dget k d = None.
Proof.
  intros F N. destruct (dget k d) eqn:E; auto. apply dget_in in E. rewrite Forall_forall in F. now elim (N (F _ E)).
Qed.
Lemma models_keys r : Forall (fun kv => In (fst kv) model_keys) (models_back r).
Proof.
  unfold models_back. apply Forall_forall. intros kv I. apply in_flat_map in I as (k & K & J). destruct (dget k r) as [[]|]; try destruct J. destruct (is_none _); [destruct J|]. destruct J as [<-|[]]. exact K.
Qed.
Lemma conditions_keys p : Forall (fun kv => In (fst kv) [#"initial_condition"]) (conditions_back p).
Proof. unfold conditions_back. destruct (trim _); repeat constructor. Qed.
Lemma conditions_unique p : keys_unique (conditions_back p).
Proof. unfold conditions_back. apply no_dup_keys_ok. destruct (trim _); reflexivity. Qed.
Lemma models_conditions p r k : dget k (models_back r) = None \/ dget k (conditions_back p) = None.
Proof.
  destruct (key_eqb k #"initial_condition") eqn:E.
  - left. apply key_eqb_eq in E. subst. apply (keys_only _ model_keys); [apply models_keys|]. cbn [model_keys In]. intros [X|[X|[]]]; discriminate X.
  - right. apply (keys_only _ [#"initial_condition"]); [apply conditions_keys|]. intros [X|[]]. subst. rewrite key_eqb_refl in E. discriminate E.
Qed.
Lemma default_swap p q m : keys_unique m -> (forall k, dget k m = None \/ dget k (conditions_back p) = None) ->
  exists d d', dget #"default" (PARAM_upd p (with_default m q)) = Some (PDict d) /\ dget #"default" (with_default m (PARAM_upd p q)) = Some (PDict d') /\ same_dict eq d d'.
Proof.
  intros U D. unfold PARAM_upd, with_default. cbv zeta. rewrite !dget_dset_same. eexists. eexists. split; [reflexivity|]. split; [reflexivity|].
  unfold val. repeat first [rewrite dget_dset_same | rewrite dget_dset_other by discriminate]. cbn [entries]. apply disjoint_updates; auto. apply conditions_unique.
Qed.
Lemma dget_named {A} (f : A -> dict) (g : A -> key) n m l : dget n (map (fun x => (g x, PDict (f x))) l) = Some (PDict m) -> exists x, m = f x.
Proof. induction l as [|x l IH]; cbn [map dget]; [discriminate|]. destruct (key_eqb n (g x)); [|exact IH]. intros E. exists x. congruence. Qed.
Lemma rocks_swap p q : exists d d', dget #"rocks" (with_rocks (indom_back p) (FLAC_upd p q)) = Some (PDict d) /\ dget #"rocks" (FLAC_upd p (with_rocks (indom_back p) q)) = Some (PDict d') /\ same_dict (deep eq) d d'.
Proof.
  unfold FLAC_upd, with_rocks. rewrite !dget_dset_same. eexists. eexists. split; [reflexivity|]. split; [reflexivity|].
  unfold val. repeat first [rewrite dget_dset_same | rewrite dget_dset_other by discriminate]. cbn [entries]. apply merge_swap.
  intros n m m' A B. unfold flac_rocks_back in A. unfold indom_back in B. apply dget_named in A as (x & ->). apply dget_named in B as (y & ->).
  split; [apply no_dup_keys_ok; reflexivity|]. split; [apply no_dup_keys_ok; reflexivity|]. intros k. destruct (key_eqb k #"initial_condition") eqn:E.
  - left. apply key_eqb_eq in E. subst. reflexivity.
  - right. cbn [dget]. now rewrite E.
Qed.

Definition four : list key := [#"default"; #"rocks"; #"elements"; #"coordinates"].
Lemma at_one k kws os ss : existsb (key_eqb k) four = false -> List.length kws = 21 -> List.length os = 21 -> List.length ss = 21 -> List.length (at_k k (blocks kws os ss touched)) <= 1.
Proof.
  intros N L1 L2 L3.
  assert (E : forall (a : list (str * list str * (bool * (dict -> dict)))) tt, List.length a = List.length tt -> List.length (at_k k (combine a tt)) = List.length (filter (fun ks => existsb (key_eqb k) ks) tt)).
  { induction a as [|x a IH]; intros [|t tt] L; try discriminate L; [reflexivity|]. cbn [combine at_k filter]. unfold b_keys at 1. cbn [snd]. specialize (IH tt ltac:(cbn in L; lia)). unfold at_k in IH.
    destruct (existsb (key_eqb k) t); cbn [List.length]; now rewrite IH. }
  unfold blocks. rewrite E by (rewrite !combine_length, L1, L2, L3; reflexivity). clear E.
  destruct (existsb (key_eqb k) (concat touched)) eqn:X.
  - assert (A : forallb (fun k => existsb (key_eqb k) four || (List.length (filter (fun ks => existsb (key_eqb k) ks) touched) <=? 1)) (concat touched) = true) by (vm_compute; reflexivity).
    apply existsb_exists in X as (k' & I & X). apply key_eqb_eq in X. subst k'. rewrite forallb_forall in A. specialize (A k I). apply orb_true_iff in A as [A|A]; [rewrite N in A; discriminate A|]. apply Nat.leb_le in A. exact A.
  - revert X. generalize touched. intros t. induction t as [|ks t IH]; intros X; cbn [filter List.length concat] in *; [lia|]. rewrite existsb_app in X. apply orb_false_iff in X as [X1 X2]. rewrite X1. apply IH. exact X2.
Qed.
Lemma perm_forall {A} (P : A -> Prop) l l' : Permutation l l' -> Forall P l -> Forall P l'.
Proof. intros E. rewrite !Forall_forall. intros F x I. apply F. now apply (Permutation_in x (Permutation_sym E)). Qed.
Lemma at_sub k l x r : at_k k l = x :: r -> exists a b, l = a ++ x :: b /\ at_k k a = [] /\ at_k k b = r.
Proof.
  induction l as [|y l IH]; cbn [at_k filter]; [discriminate|]. destruct (existsb (key_eqb k) (b_keys y)) eqn:E.
  - intros X. assert (y = x) as -> by congruence. exists [], l. repeat split. unfold at_k. congruence.
  - intros X. destruct (IH X) as (a & b & -> & A & B). exists (y :: a), b. repeat split; auto. cbn [at_k filter]. now rewrite E.
Qed.
Lemma not_late k l e c : at_k k l = [c; e] -> b_kw c = $"COORD" -> b_kw e = $"ELEME" -> NoDup (map b_kw l) -> elements_first (map b_kw l) -> False.
Proof.
  intros E C D N F. apply at_sub in E as (a & b & -> & A & B). apply at_sub in B as (a' & b' & -> & A' & B'). rewrite map_app in *. cbn [map] in *.
  specialize (F (map b_kw a) (map b_kw (a' ++ e :: b'))). rewrite C in F. specialize (F eq_refl). rewrite map_app in N. cbn [map] in N. rewrite D in N.
  apply NoDup_remove_1 in N. rewrite app_assoc in N. apply NoDup_remove_2 in N. apply N. apply in_or_app. left. apply in_or_app. now left.
Qed.
Definition pair_at (p : dict) (k : key) (x y : block) : Prop :=
  k = #"default" /\ snd (b_step x) = with_default (models_back (default_of p)) /\ snd (b_step y) = PARAM_upd p \/
  k = #"rocks" /\ snd (b_step x) = FLAC_upd p /\ snd (b_step y) = with_rocks (indom_back p) \/ b_kw x = $"ELEME" /\ b_kw y = $"COORD".
Lemma same_order ll p its l' q : Forall (sound ll p) its ->
  (forall k, existsb (key_eqb k) four = false -> List.length (at_k k its) <= 1) ->
  (forall k, existsb (key_eqb k) four = true -> exists x y, at_k k its = [x; y] /\ pair_at p k x y) ->
  Permutation (filter b_given its) l' -> NoDup (map b_kw l') -> elements_first (map b_kw l') ->
  same_parameters (run_list (filter b_given its) q) (run_list l' q).
Proof.
  intros SD ONE TWO P ND EF k.
  assert (SG : Forall (sound ll p) (filter b_given its)) by (apply Forall_forall; intros x I; apply filter_In in I as [I _]; rewrite Forall_forall in SD; auto).
  pose proof (perm_forall _ _ _ P SG) as SL.
  rewrite (run_at ll p k _ SG q q eq_refl), (run_at ll p k _ SL q q eq_refl).
  assert (EQ : at_k k l' = at_k k (filter b_given its) -> match dget k (run_list (at_k k (filter b_given its)) q), dget k (run_list (at_k k l') q) with
    Some v, Some w => deep (deep eq) v w | None, None => True | _, _ => False end).
  { intros ->. destruct (dget k _); [apply same_refl|exact Logic.I]. }
  destruct (existsb (key_eqb k) four) eqn:F4.
  2:{ apply EQ. exact (few (fun x => existsb (key_eqb k) (b_keys x)) b_given its l' (ONE k F4) P). }
  destruct (TWO k F4) as (x & y & X & Y).
  destruct (two (fun x => existsb (key_eqb k) (b_keys x)) b_given its l' x y X P) as [E|(G1 & G2 & E & E')]; [exact (EQ E)|].
  fold (at_k k (filter b_given its)) in E. fold (at_k k l') in E'. rewrite E, E'. unfold run_list. cbn [fold_left].
  destruct Y as [(-> & -> & ->)|[(-> & -> & ->)|(Y1 & Y2)]].
  - destruct (default_swap p q (models_back (default_of p)) (models_back_unique _) (models_conditions p _)) as (d & d' & -> & -> & SD'). right. exists d, d'. repeat split; auto.
    intros k'. specialize (SD' k'). destruct (dget k' d), (dget k' d'); auto. subst. apply same_refl.
  - destruct (rocks_swap p q) as (d & d' & -> & -> & SD'). right. exists d, d'. auto.
  - exfalso. exact (not_late k l' x y E' Y2 Y1 ND EF).
Qed.
Definition nth_block (os : list (list str)) (ss : list (bool * (dict -> dict))) (n : nat) : block :=
  (nth n middle_names [], nth n os [], nth n ss (false, fun q => q), nth n touched []).
Lemma at_two os ss : List.length os = 21 -> List.length ss = 21 ->
  at_k #"default" (blocks middle_names os ss touched) = [nth_block os ss 0; nth_block os ss 5] /\
  at_k #"rocks" (blocks middle_names os ss touched) = [nth_block os ss 1; nth_block os ss 7] /\
  at_k #"elements" (blocks middle_names os ss touched) = [nth_block os ss 16; nth_block os ss 17] /\
  at_k #"coordinates" (blocks middle_names os ss touched) = [nth_block os ss 16; nth_block os ss 17].
Proof.
  do 21 (destruct os as [|? os]; [discriminate|]). destruct os; [|discriminate]. intros _.
  do 21 (destruct ss as [|? ss]; [discriminate|]). destruct ss; [|discriminate]. intros _. repeat split; vm_compute; reflexivity.
Qed.
Lemma at_four p os k : List.length os = 21 -> existsb (key_eqb k) four = true ->
  exists x y, at_k k (blocks middle_names os (FILE_steps p) touched) = [x; y] /\ pair_at p k x y.
Proof.
  intros L F. destruct (at_two os (FILE_steps p) L eq_refl) as (A & B & C & D).
  apply existsb_exists in F as (k' & I & F). apply key_eqb_eq in F. subst k'.
  destruct I as [<-|[<-|[<-|[<-|[]]]]]; do 2 eexists; split; try eassumption.
  - left. split; [reflexivity|]. split; reflexivity.
  - right. left. split; [reflexivity|]. split; reflexivity.
  - right. right. split; reflexivity.
  - right. right. split; reflexivity.
Qed.
Lemma given_names kws : forall os ss tt, List.length os = List.length kws -> List.length ss = List.length kws -> List.length tt = List.length kws ->
  map b_kw (filter b_given (blocks kws os ss tt)) = map fst (filter (fun b => snd b : bool) (combine kws (map fst ss))).
Proof.
  unfold blocks. induction kws as [|kw kws IH]; intros [|o os] [|s ss] [|t tt] A B C; cbn [List.length] in *; try discriminate; [reflexivity|].
  cbn [combine map filter]. unfold b_given at 1, b_step. cbn [fst snd]. specialize (IH os ss tt ltac:(lia) ltac:(lia) ltac:(lia)). destruct (fst s); cbn [map]; rewrite IH; reflexivity.
Qed.
Lemma names_good : Forall (fun kw => startswith kw (head kw) = true) middle_names.
Proof. unfold middle_names. repeat (apply Forall_cons; [reflexivity|]). apply Forall_nil. Qed.
Lemma names_nodup : NoDup middle_names.
Proof. unfold middle_names. repeat (apply NoDup_cons; [intros I; repeat (destruct I as [I|I]; [discriminate I|]); exact I|]). apply NoDup_nil. Qed.
Lemma nodup_given its : NoDup (map b_kw its) -> NoDup (map b_kw (filter b_given its)).
Proof.
  induction its as [|x l IH]; cbn [map filter]; intros N; [constructor|]. inversion N as [|? ? N1 N2]; subst. destruct (b_given x); auto. cbn [map]. constructor; auto.
  intros I. apply N1. apply in_map_iff in I as (y & E & I). apply filter_In in I as [I _]. rewrite <- E. now apply in_map.
Qed.
Lemma sound_good ll p x : sound ll p x -> Forall good_line (b_lines x).
Proof.
  intros ((O & PE & PC & PP) & _). destruct (streqb (b_kw x) ($"ELEME")) eqn:A; [apply streqb_eq in A; apply (PE A)|]. apply streqb_neq in A.
  destruct (streqb (b_kw x) ($"COORD")) eqn:B; [apply streqb_eq in B; apply (PC B)|]. apply streqb_neq in B. apply (PP A B).
Qed.
Lemma COORD_given its : NoDup (map b_kw its) -> forall x, In x its -> forall y, In y its -> b_kw x = b_kw y -> x = y.
Proof.
  induction its as [|z l IH]; intros N x I y J E; [destruct I|]. cbn [map] in N. inversion N as [|? ? N1 N2]; subst.
  destruct I as [<-|I], J as [<-|J]; auto; exfalso; apply N1; [rewrite E|rewrite <- E]; now apply in_map.
Qed.
Lemma split_once {A} (x : A) (l : list A) : ~ In x l -> forall a b r, l ++ x :: r = a ++ x :: b -> ~ In x r -> a = l.
Proof.
  induction l as [|y l IH]; intros N [|z a] b r E NR; auto; cbn [app] in E.
  - exfalso. assert (r = a ++ x :: b) as -> by congruence. apply NR. apply in_or_app. right. now left.
  - exfalso. apply N. left. congruence.
  - assert (z = y) as -> by congruence. f_equal. apply (IH (fun I => N (or_intror I)) a b r); [congruence|exact NR].
Qed.
Lemma written_first (pre post : list (str * bool)) (e c : bool) : (c = true -> e = true) -> ~ In ($"COORD") (map fst pre) -> ~ In ($"COORD") (map fst post) ->
  elements_first (map fst (filter (fun b => snd b) (pre ++ ($"ELEME", e) :: ($"COORD", c) :: post))).
Proof.
  intros C N1 N2 a b. rewrite filter_app, map_app.
  assert (SUB : forall l : list (str * bool), ~ In ($"COORD") (map fst l) -> ~ In ($"COORD") (map fst (filter (fun b => snd b) l))).
  { intros l N I. apply N. apply in_map_iff in I as (x & <- & I). apply filter_In in I as [I _]. now apply in_map. }
  apply SUB in N1, N2. revert N1 N2. cbn [filter snd]. generalize (map fst (filter (fun b : str * bool => snd b) pre)) as A, (filter (fun b : str * bool => snd b) post) as B. intros A B N1 N2 E.
  destruct c.
  - rewrite C in E by reflexivity. cbn [map fst] in E.
    replace (A ++ $"ELEME" :: $"COORD" :: map fst B) with ((A ++ [$"ELEME"]) ++ $"COORD" :: map fst B) in E by (rewrite <- app_assoc; reflexivity).
    apply split_once in E; [subst a; apply in_or_app; right; now left| |exact N2]. intros I. apply in_app_or in I as [I|[I|[]]]; [now apply N1|discriminate I].
  - exfalso. assert (I : In ($"COORD") (a ++ $"COORD" :: b)) by (apply in_or_app; right; now left). rewrite <- E in I. apply in_app_or in I as [I|I]; [now apply N1|].
    destruct e; cbn [map fst] in I; [destruct I as [I|I]; [discriminate I|]|]; now apply N2.
Qed.
Lemma file_first p : (filled (val #"coordinates" p) = true -> filled (val #"elements" p) = true) -> elements_first (map fst (filter (fun b => snd b : bool) (combine middle_names (map fst (FILE_steps p))))).
Proof.
  intros C. apply (written_first (firstn 16 (combine middle_names (map fst (FILE_steps p)))) (skipn 18 (combine middle_names (map fst (FILE_steps p)))) _ _ C);
    intros I; unfold FILE_steps, middle_names in I; cbn [combine map fst firstn skipn] in I; repeat (destruct I as [I|I]; [discriminate I|]); exact I.
Qed.

Lemma same_blocks (l l' : list block) : NoDup (map b_kw l) -> Permutation l l' -> map b_kw l' = map b_kw l -> l' = l.
Proof.
  revert l'. induction l as [|x l IH]; intros l' N P M; [destruct l'; [reflexivity|discriminate M]|].
  destruct l' as [|y l']; [discriminate M|]. cbn [map] in M. pose proof (f_equal (hd []) M) as M1. pose proof (f_equal (@tl _) M) as M2. cbn [hd tl] in M1, M2.
  assert (XY : y = x).
  { symmetry. apply (COORD_given (x :: l) N); [now left|exact (Permutation_in _ (Permutation_sym P) (or_introl eq_refl))|now symmetry]. }
  subst y. f_equal. apply IH; auto; [now inversion N|exact (Permutation_cons_inv P)].
Qed.
Theorem FILE_remarks u p ll fuel : prepare u = Ok p -> FILE_ok p -> label_choice ll -> FILE_known (label_given ll) p ->
  List.length (titles_of p) < fuel ->
  exists title rocks parts last, write_text u ($"all") = Ok (file_of title rocks parts last) /\
    List.length title = List.length (titles_of p) /\ opened_by ($"ROCKS") rocks /\ startswith ($"ENDCY") last = true /\
    map fst parts = blocks_given p /\ Forall (fun b => opened_by (fst b) (snd b)) parts /\
    read_text fuel ll (file_of title rocks parts last) = Ok (FILE_back p) /\
    forall before parts' after, Permutation parts (map fst parts') -> elements_first (map fst (map fst parts')) ->
      remarks before -> Forall remarks (map snd parts') -> after_end after ->
      exists d, read_text fuel ll (remarked title rocks before parts' last after) = Ok d /\ same_parameters (FILE_back p) d /\
        (map fst parts' = parts -> d = FILE_back p).
Proof.
  intros E H LC K L. destruct (prepare_keys u p E) as [M NS]. pose proof H as (T & TT & R & _).
  assert (Q : is_seq (val #"title" p) = true).
  { pose proof (typed_at _ _ #"title" TextOrSequence T eq_refl) as X. destruct (val #"title" p) eqn:V; try discriminate; auto.
    exfalso. unfold titles_of in TT. rewrite V in TT. inversion_clear TT as [|? ? (s & Y & _)]. discriminate. }
  assert (EC : filled (val #"coordinates" p) = true -> filled (val #"elements" p) = true) by apply H.
  destruct (FILE_write (label_given ll) p H K M Q) as (os & W & _ & _ & PS & LO).
  destruct (blocks_sound (label_given ll) p middle_names os (FILE_steps p) touched PS (steps_touch p) (steps_local p)) as (SD & X1 & X2 & X3);
    [unfold middle_names, touched; repeat (apply Forall2_cons; [vm_compute; reflexivity|]); apply Forall2_nil|exact LO|].
  pose proof (given_names middle_names os (FILE_steps p) touched LO eq_refl eq_refl) as GN.
  pose proof (fun k => at_one k middle_names os (FILE_steps p)) as ONE. pose proof (fun k => at_four p os k LO) as TWO.
  assert (CG : forall x, In x (blocks middle_names os (FILE_steps p) touched) -> b_kw x = $"COORD" -> b_given x = filled (val #"coordinates" p)).
  { intros x I C. destruct (at_two os (FILE_steps p) LO eq_refl) as (_ & _ & Z & _).
    assert (J : In (nth_block os (FILE_steps p) 17) (blocks middle_names os (FILE_steps p) touched)).
    { apply (proj1 (filter_In (fun x => existsb (key_eqb #"elements") (b_keys x)) _ _)). fold (at_k #"elements" (blocks middle_names os (FILE_steps p) touched)). rewrite Z. right. now left. }
    rewrite (COORD_given (blocks middle_names os (FILE_steps p) touched) ltac:(rewrite X1; apply names_nodup) x I _ J); [reflexivity|]. rewrite C. reflexivity. }
  assert (RG : forall q, run_steps (FILE_steps p) q = run_list (filter b_given (blocks middle_names os (FILE_steps p) touched)) q) by (intros q; rewrite <- run_given, X3; reflexivity).
  assert (ONE' : forall k, existsb (key_eqb k) four = false -> List.length (at_k k (blocks middle_names os (FILE_steps p) touched)) <= 1) by (intros k N; apply ONE; [exact N|reflexivity|exact LO|reflexivity]).
  clear ONE. rewrite <- X2 in W. clear X2 X3. revert X1 SD GN ONE' TWO CG RG W. generalize (blocks middle_names os (FILE_steps p) touched) as its. intros its X1 SD GN ONE TWO CG RG W.
  rewrite (filter_flags _ _ _ SD) in W.
  assert (SG : Forall (sound (label_given ll) p) (filter b_given its)) by (apply Forall_forall; intros x I; apply filter_In in I as [I _]; rewrite Forall_forall in SD; auto).
  assert (GG : Forall (fun x => b_given x = true) (filter b_given its)) by (apply Forall_forall; intros x I; now apply filter_In in I as [_ I]).
  assert (ND : NoDup (map b_kw (filter b_given its))) by (apply nodup_given; rewrite X1; apply names_nodup).
  assert (EG : filled (val #"elements" p) = true \/ ~ In ($"COORD") (map b_kw (filter b_given its))).
  { destruct (filled (val #"coordinates" p)) eqn:C; [left; auto|right]. intros I. apply in_map_iff in I as (x & I1 & I2). apply filter_In in I2 as [I2 I3]. rewrite (CG x I2 I1) in I3. discriminate I3. }
  assert (NG : forall x, In x its -> startswith (b_kw x) (head (b_kw x)) = true).
  { intros x I. pose proof names_good as NG. rewrite Forall_forall in NG. apply NG. rewrite <- X1. now apply in_map. }
  pose (q0 := dupdate (title_back p) (ROCKS_back p)).
  assert (RD : forall before l after, Permutation (filter b_given its) (map fst l) -> elements_first (map b_kw (map fst l)) -> notes before -> Forall notes (map snd l) -> after_end after ->
    read_text fuel ll (remarked (map title_line (titles_of p)) (head ($"ROCKS") :: ROCKS_body p) before (map (fun x => (b_part (fst x), snd x)) l) (head_noend ($"ENDCY")) after) = Ok (run_list (map fst l) q0)).
  { intros before l after P EF NB NL AE. pose proof (perm_forall _ _ _ P SG) as SL. pose proof (perm_forall _ _ _ P GG) as GL.
    assert (B : forall t, read_text fuel ll t = read_buffer fuel (label_given ll) t).
    { intros t. unfold read_text, label_given. destruct ll as [z|]; [|reflexivity]. cbn [label_choice] in LC.
      replace (5 <=? z)%Z with true by (symmetry; apply Z.leb_le; lia).
      replace (z <? 10)%Z with true by (symmetry; apply Z.ltb_lt; lia). reflexivity. }
    rewrite B. unfold read_buffer, remarked. rewrite map_map. change (map (fun x => snd (fst (b_part (fst x), snd x)) ++ snd (b_part (fst x), snd x)) l) with (map n_lines l).
    assert (LL : Forall good_line (concat (map n_lines l))).
    { apply Forall_forall. intros z I. apply in_concat in I as (o & I & J). apply in_map_iff in I as (x & <- & I). unfold n_lines in J. apply in_app_iff in J as [J|J].
      - rewrite Forall_forall in SL. pose proof (sound_good _ _ _ (SL (fst x) (in_map fst _ _ I))) as Y. rewrite Forall_forall in Y. exact (Y z J).
      - rewrite Forall_forall in NL. pose proof (notes_good _ (NL (snd x) (in_map snd _ _ I))) as Y. rewrite Forall_forall in Y. exact (Y z J). }
    assert (LG : Forall good_line (map title_line (titles_of p) ++ (head ($"ROCKS") :: ROCKS_body p) ++ before ++ concat (map n_lines l))).
    { apply Forall_app. split; [now apply title_good|]. apply Forall_app. split; [|apply Forall_app; split; [now apply notes_good|exact LL]].
      constructor; [now apply good_head|now apply ROCKS_good]. }
    replace (map title_line (titles_of p) ++ (head ($"ROCKS") :: ROCKS_body p) ++ before ++ concat (map n_lines l) ++ [head_noend ($"ENDCY")])
      with ((map title_line (titles_of p) ++ (head ($"ROCKS") :: ROCKS_body p) ++ before ++ concat (map n_lines l)) ++ [head_noend ($"ENDCY")]) by (now rewrite <- !app_assoc).
    rewrite concat_app, <- app_assoc, lines_good by exact LG.
    assert (TL : exists e more, lines (concat [head_noend ($"ENDCY")] ++ after) = e :: more /\ (e = head ($"ENDCY") \/ e = head_noend ($"ENDCY"))).
    { destruct after as [|c after]; [exists (head_noend ($"ENDCY")), []; split; [reflexivity|now right]|]. cbn [after_end] in AE. subst c.
      exists (head ($"ENDCY")), (lines after). split; [reflexivity|now left]. }
    destruct TL as (e & more & -> & EE). rewrite <- !app_assoc. cbn [app].
    rewrite read_title_ok by auto. cbn [bind].
    match goal with |- read_blocks ?n ?a ?b ?c = ?r => cut (Run a b c r); [intros X; apply X; auto|] end.
    change (Run (label_given ll) (title_back p) (map title_line (titles_of p) ++ head ($"ROCKS") :: ROCKS_body p ++ before ++ concat (map n_lines l) ++ e :: more) (Ok (run_list (map fst l) q0))).
    assert (PR : follows (concat (map n_lines l) ++ e :: more) /\ Run (label_given ll) q0 (concat (map n_lines l) ++ e :: more) (Ok (run_list (map fst l) q0))).
    { apply (phase_run (label_given ll) p l SL GL NL) with (e := false).
      - destruct EG as [EG|EG]; [now left|right]. intros I. apply EG. exact (Permutation_in _ (Permutation_sym (Permutation_map b_kw P)) I).
      - apply first_ordered; [exact (Permutation_NoDup (Permutation_map b_kw P) ND)|]. intros a b X. right. exact (EF a b X).
      - split; [|discriminate]. unfold q0, Inv, FLAC_pre, has_rocks, default_readable.
        assert (KU : keys_unique (ROCKS_back p)) by (apply no_dup_keys_ok; reflexivity).
        rewrite !dget_dupdate by exact KU. split; [split|].
        + reflexivity.
        + exists (rocks_back p). split; [reflexivity|]. split; [unfold rocks_back, dkeys; now rewrite map_map|].
          apply Forall_forall. intros kv Hx. apply in_map_iff in Hx as (x & <- & _). reflexivity.
        + left. unfold title_back. destruct (titles_of p); reflexivity.
      - apply follows_block. exists ($"ENDCY"), more. split; [kw|]. destruct EE as [-> | ->]; auto.
      - intros [|n] F; [cbn in F; lia|]. destruct EE as [-> | ->]; reflexivity. }
    destruct PR as [FO PR]. apply titles_run; auto. eapply Run_block; [apply ROCKS_block; auto|]. now apply notes_run. }
  exists (map title_line (titles_of p)), (head ($"ROCKS") :: ROCKS_body p), (map b_part (filter b_given its)), (head_noend ($"ENDCY")).
  split; [|split; [|split; [|split; [|split; [|split]]]]].
  - unfold write_text. change (sel_of ($"all")) with (Some SelAll). cbv iota. rewrite E. cbn [bind]. rewrite W. cbn [bind]. unfold file_of. rewrite map_map. reflexivity.
  - apply map_length.
  - do 2 eexists. split; reflexivity.
  - reflexivity.
  - rewrite map_map. exact GN.
  - apply Forall_forall. intros b I. apply in_map_iff in I as (x & <- & I). apply filter_In in I as [I G]. rewrite Forall_forall in SD. destruct (SD x I) as ((O & _) & _).
    unfold opens in O. fold (b_given x) in O. rewrite G in O. destruct O as (body & O). exists (head (b_kw x)), body. split; [exact O|exact (NG x I)].
  - unfold FILE_back. fold q0. rewrite RG. split.
    + pose proof (RD [] (map (fun x => (x, [])) (filter b_given its)) []) as X. rewrite !map_map in X. cbn [fst snd] in X. rewrite map_id in X.
      assert (FO : forall t r e l, remarked t r [] (map (fun x : block => (b_part x, [])) l) e [] = file_of t r (map b_part l) e).
      { intros t r e l. unfold remarked, file_of. rewrite app_nil_r, !map_map. cbn [app fst snd]. f_equal. f_equal. f_equal. f_equal. f_equal. apply map_ext. intros x. apply app_nil_r. }
      rewrite FO in X. apply X; [apply Permutation_refl| |split; [constructor|exact I]| |exact I].
      * change (elements_first (map b_kw (filter b_given its))). rewrite GN. exact (file_first p EC).
      * clear. induction (filter b_given its); constructor; auto. split; [constructor|exact I].
    + intros before parts' after P EF NB NL AE. destruct (Permutation_map_inv _ _ (Permutation_sym P)) as (l & EP & P').
      assert (EL : exists l2, parts' = map (fun x => (b_part (fst x), snd x)) l2 /\ map fst l2 = l /\ map snd l2 = map snd parts').
      { clear -EP. revert l EP. induction parts' as [|[a n] r IH]; intros [|x l] EP; try discriminate EP; [exists []; auto|]. cbn [map fst] in EP.
        pose proof (f_equal (fun z => hd a z) EP) as E1. pose proof (f_equal (@tl _) EP) as E2. cbn [hd tl] in E1, E2.
        destruct (IH l E2) as (l2 & -> & <- & X). exists ((x, n) :: l2). cbn [map fst snd]. rewrite E1, X. auto. }
      destruct EL as (l2 & -> & E2 & E3). rewrite <- E3 in NL. subst l. rewrite !map_map in EF. change (map (fun x => fst (fst (b_part (fst x), snd x))) l2) with (map (fun x => b_kw (fst x)) l2) in EF.
      rewrite <- map_map in EF. exists (run_list (map fst l2) q0). split; [exact (RD before l2 after P' EF NB NL AE)|]. split.
      * apply (same_order (label_given ll) p its (map fst l2) q0 SD ONE TWO P'); [exact (Permutation_NoDup (Permutation_map b_kw P') ND)|exact EF].
      * intros X. rewrite map_map in X. cbn [fst] in X. rewrite <- map_map in X. f_equal.
        apply (same_blocks _ _ ND); [exact P'|]. rewrite !map_map in X.
        pose proof (f_equal (map fst) X) as Y. rewrite !map_map in Y. rewrite map_map. exact Y.
Qed.
Theorem FILE_any_order u p ll fuel : prepare u = Ok p -> FILE_ok p -> label_choice ll -> FILE_known (label_given ll) p ->
  List.length (titles_of p) < fuel ->
  exists title rocks parts last, write_text u ($"all") = Ok (file_of title rocks parts last) /\
    List.length title = List.length (titles_of p) /\ opened_by ($"ROCKS") rocks /\ startswith ($"ENDCY") last = true /\
    map fst parts = blocks_given p /\ Forall (fun b => opened_by (fst b) (snd b)) parts /\
    read_text fuel ll (file_of title rocks parts last) = Ok (FILE_back p) /\
    forall parts', Permutation parts parts' -> elements_first (map fst parts') ->
      exists d, read_text fuel ll (file_of title rocks parts' last) = Ok d /\ same_parameters (FILE_back p) d.
Proof.
  intros E H LC K L. destruct (FILE_remarks u p ll fuel E H LC K L) as (title & rocks & parts & last & A1 & A2 & A3 & A4 & A5 & A6 & A7 & A8).
  exists title, rocks, parts, last. repeat (split; [assumption|]). intros parts' P EF.
  assert (M : forall l : list (str * list str), map fst (map (fun b => (b, [] : list str)) l) = l) by (intros l; rewrite map_map; apply map_id).
  destruct (A8 [] (map (fun b => (b, [])) parts') []) as (d & B1 & B2 & _); [now rewrite M|now rewrite M|split; [constructor|exact I]| |exact I|].
  - clear. induction parts'; constructor; auto. split; [constructor|exact I].
  - exists d. split; [|exact B2]. rewrite <- B1. f_equal. unfold remarked, file_of. rewrite app_nil_r, map_map. cbn [app fst snd]. do 5 f_equal. apply map_ext. intros x. symmetry. apply app_nil_r.
Qed.
