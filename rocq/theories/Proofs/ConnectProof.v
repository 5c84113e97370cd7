(** Connectivity. *)
From Coq Require Import String Ascii Arith ZArith Bool Lia Permutation List.
From Verif Require Import Base.Str Model.Py Model.Numpy Model.Mesh Spec.Order Spec.MeshCells Proofs.DictLemmas Proofs.NumpyProof.
Import ListNotations.
Local Open Scope nat_scope.

Lemma numbered_In {A} (l : list A) i x : In (i, x) (numbered l) <-> nth_error l i = Some x.
Proof.
  unfold numbered. assert (G : forall (l : list A) b i, In (i, x) (combine (seq b (List.length l)) l) <-> exists k, i = b + k /\ nth_error l k = Some x).
  { clear. induction l as [|y l IH]; intros b i; cbn [List.length seq combine In].
    - split; [intros []|]. intros ([|k] & _ & E); discriminate.
    - rewrite IH. split.
      + intros [E | (k & -> & E)]; [injection E as <- <-; exists 0; split; [lia|reflexivity]|]. exists (S k). split; [lia|exact E].
      + intros ([|k] & -> & E); cbn [nth_error] in E.
        * left. injection E as ->. f_equal. lia.
        * right. exists k. split; [lia|exact E]. }
  rewrite G. split; [intros (k & -> & E); exact E|]. intros E. exists i. split; [lia|exact E].
Qed.
Lemma occurrences_In F p f : In (p, f) (occurrences F) <-> face F p = Some f.
Proof.
  unfold occurrences, face. rewrite in_concat. destruct p as [i j]. cbn [fst snd]. split.
  - intros (l & L & I). apply in_map_iff in L as ([i' c] & <- & C). apply in_map_iff in I as ([j' g] & E & I).
    cbn [fst snd] in *. injection E as <- <- <-. apply numbered_In in C, I. now rewrite C.
  - destruct (nth_error F i) as [c|] eqn:C; [|discriminate]. intros E. eexists. split.
    + apply in_map_iff. exists (i, c). split; [reflexivity|]. now apply numbered_In.
    + apply in_map_iff. exists (j, f). split; [reflexivity|]. now apply numbered_In.
Qed.
Lemma numbered_fst {A} (l : list A) : map fst (numbered l) = seq 0 (List.length l).
Proof.
  unfold numbered. assert (G : forall (l : list A) (b : list nat), List.length b = List.length l -> map fst (combine b l) = b).
  { clear. induction l as [|x l IH]; intros [|y b] E; cbn [combine map fst]; try discriminate; auto. f_equal. auto. }
  apply G. apply seq_length.
Qed.
Lemma nodup_app {A} (a b : list A) : NoDup a -> NoDup b -> (forall x, In x a -> ~ In x b) -> NoDup (a ++ b).
Proof.
  induction 1 as [|x a N ND IH]; intros NB D; cbn [app]; auto. constructor.
  - rewrite in_app_iff. intros [X | X]; [contradiction|]. exact (D x (or_introl eq_refl) X).
  - apply IH; auto. intros y Y. apply D. now right.
Qed.
Lemma nodup_blocks {A B} (l : list (nat * A)) (g : nat * A -> list B) (key : B -> nat) :
  NoDup (map fst l) -> (forall x, NoDup (g x)) -> (forall x y, In y (g x) -> key y = fst x) ->
  NoDup (concat (map g l)).
Proof.
  intros N G K. induction l as [|x l IH]; cbn [map concat]; [constructor|]. cbn [map] in N. inversion N; subst.
  apply nodup_app; auto. intros y Y Z0. apply in_concat in Z0 as (m & M & Y2). apply in_map_iff in M as (x' & <- & X').
  apply K in Y, Y2. apply H1. rewrite <- Y, Y2. now apply in_map.
Qed.
Lemma occurrences_nodup F : NoDup (map fst (occurrences F)).
Proof.
  unfold occurrences. rewrite concat_map, map_map. apply (nodup_blocks (numbered F)
    (fun ic => map fst (map (fun jf => ((fst ic, fst jf), snd jf)) (numbered (snd ic)))) fst).
  - rewrite numbered_fst. apply seq_NoDup.
  - intros [i c]. cbn [fst snd]. rewrite map_map. cbn [fst]. rewrite <- (map_map fst (fun j => (i, j))), numbered_fst.
    apply FinFun.Injective_map_NoDup; [intros a b E; congruence|apply seq_NoDup].
  - intros [i c] y Y. cbn [fst snd] in *. rewrite map_map in Y. apply in_map_iff in Y as (jf & <- & _). reflexivity.
Qed.

Lemma map_seq_nth {A B} (l : list A) (f : nat -> B) (g : A -> B) :
  (forall k u, nth_error l k = Some u -> f k = g u) -> map f (seq 0 (List.length l)) = map g l.
Proof.
  assert (G : forall b, (forall k u, nth_error l k = Some u -> f (b + k) = g u) -> map f (seq b (List.length l)) = map g l).
  { induction l as [|x l IH]; intros b H; [reflexivity|]. cbn [List.length seq map]. f_equal.
    - rewrite <- (Nat.add_0_r b). now apply H.
    - apply IH. intros k u K. rewrite Nat.add_succ_comm. now apply (H (S k) u). }
  intros H. now apply G.
Qed.
(** owners, by key instead of by rank *)
Definition key_of (o : (nat * nat) * list nat) : list nat := isort Nat.leb (snd o).
Lemma owners_by_key occ :
  owners occ = map (fun u => map fst (filter (fun o => same (lexb Nat.leb) (key_of o) u) occ)) (unique (lexb Nat.leb) (map key_of occ)).
Proof.
  pose proof (lexb_order _ nat_order) as LO. unfold owners. fold key_of.
  change (map (fun o : nat * nat * list nat => isort Nat.leb (snd o)) occ) with (map key_of occ).
  set (v := map key_of occ). set (up := unique (lexb Nat.leb) v).
  assert (ND : NoDup up) by (apply unique_nodup; exact LO).
  assert (G : forall k u, nth_error up k = Some u ->
    map fst (filter (fun pk : nat * nat * nat => snd pk =? k) (combine (map fst occ) (unique_inverse (lexb Nat.leb) v)))
    = map fst (filter (fun o => same (lexb Nat.leb) (key_of o) u) occ)).
  { intros k u K. unfold unique_inverse. fold up. unfold v. rewrite map_map.
    assert (IN : forall o, In o occ -> In (key_of o) up) by (intros o I; apply (unique_In _ LO); unfold v; now apply in_map).
    clearbody up. clear v. induction occ as [|o occ IH]; [reflexivity|]. cbn [map combine filter snd].
    assert (E : (position (lexb Nat.leb) (key_of o) up =? k) = same (lexb Nat.leb) (key_of o) u).
    { pose proof (position_nth _ LO (key_of o) up (IN o (or_introl eq_refl))) as P.
      destruct (same (lexb Nat.leb) (key_of o) u) eqn:S.
      - apply (same_eq _ LO) in S. apply Nat.eqb_eq. rewrite S. now apply (position_nodup _ LO).
      - apply Nat.eqb_neq. intros X. rewrite X, K in P. injection P as ->. rewrite (proj2 (same_eq _ LO _ _) eq_refl) in S. discriminate. }
    rewrite E. destruct (same (lexb Nat.leb) (key_of o) u); cbn [map fst]; [f_equal|]; apply IH; intros; apply IN; now right. }
  apply map_seq_nth. exact G.
Qed.

(** the pairs of sides *)
Lemma owners_In occ g : NoDup (map fst occ) -> In g (owners occ) <->
  exists o, In o occ /\ g = map fst (filter (fun o' => same (lexb Nat.leb) (key_of o') (key_of o)) occ).
Proof.
  intros N. rewrite owners_by_key, in_map_iff. pose proof (lexb_order _ nat_order) as LO. split.
  - intros (u & <- & I). apply (proj1 (unique_In _ LO _ _)) in I. apply in_map_iff in I as (o & <- & I). eauto.
  - intros (o & I & ->). exists (key_of o). split; [reflexivity|]. apply (unique_In _ LO). now apply in_map.
Qed.
Lemma key_perm o o' : same (lexb Nat.leb) (key_of o) (key_of o') = true <-> Permutation (snd o) (snd o').
Proof. rewrite (same_eq _ (lexb_order _ nat_order)). unfold key_of. symmetry. apply (isort_perm_eq _ nat_order). Qed.

Lemma nodup_filter_fst {A B} (f : A * B -> bool) l : NoDup (map fst l) -> NoDup (map fst (filter f l)).
Proof.
  induction l as [|x l IH]; cbn [map filter]; auto. intros N. inversion N; subst. destruct (f x); cbn [map]; auto. constructor; auto.
  intros I. apply H1. apply in_map_iff in I as (y & E & I). apply filter_In in I as [I _]. rewrite <- E. now apply in_map.
Qed.

(** in terms of interfaces *)
Lemma pairs_spec F n p q (occ := of_kind n (occurrences F)) :
  In [p; q] (owners occ) -> interface F p q.
Proof.
  intros I. assert (N : NoDup (map fst occ)) by (apply nodup_filter_fst, occurrences_nodup).
  apply owners_In in I as (o & O & E); [|exact N]. symmetry in E.
  assert (ND : NoDup [p; q]) by (rewrite <- E; now apply nodup_filter_fst).
  assert (IN : forall r, In r [p; q] <-> exists f, face F r = Some f /\ Permutation f (snd o)).
  { intros r. rewrite <- E, in_map_iff. split.
    - intros ((r' & f) & <- & I). apply filter_In in I as [I S]. apply key_perm in S. cbn [fst snd] in *. exists f. split; [|exact S].
      apply filter_In in I as [I _]. now apply occurrences_In.
    - intros (f & FF & P). exists (r, f). split; [reflexivity|]. apply filter_In. split; [|now apply key_perm].
      apply filter_In. split; [now apply occurrences_In|]. cbn [snd]. rewrite (Permutation_length P).
      apply filter_In in O as [_ O]. exact O. }
  split; [|split].
  - inversion ND; subst. intros ->. apply H1. now left.
  - destruct (proj1 (IN p) (or_introl eq_refl)) as (f & FP & PP). destruct (proj1 (IN q) (or_intror (or_introl eq_refl))) as (g & FQ & PQ).
    exists f, g. split; [exact FP|]. split; [exact FQ|]. transitivity (snd o); [exact PP|now apply Permutation_sym].
  - intros r (f & g & FP & FR & P). destruct (proj1 (IN p) (or_introl eq_refl)) as (f' & FP' & PP). rewrite FP in FP'. injection FP' as <-.
    assert (R : In r [p; q]) by (apply IN; exists g; split; [exact FR|]; transitivity f; [now apply Permutation_sym|exact PP]).
    destruct R as [<- | [<- | []]]; auto.
Qed.
Lemma interface_sym F p q : interface F p q -> interface F q p.
Proof.
  intros (N & (f & g & FP & FQ & P) & U). split; [congruence|]. split; [exists g, f; auto using Permutation_sym|].
  intros r (g' & h & FQ' & FR & P'). rewrite FQ in FQ'. injection FQ' as <-. destruct (U r); auto.
  exists f, h. split; [exact FP|]. split; [exact FR|]. now transitivity g.
Qed.
Lemma two_elems {A} (l : list A) p q : NoDup l -> p <> q -> (forall r, In r l <-> r = p \/ r = q) -> l = [p; q] \/ l = [q; p].
Proof.
  intros N NE H. destruct l as [|a [|b [|c l]]].
  - exfalso. apply (proj2 (H p)). now left.
  - exfalso. apply NE. destruct (proj2 (H p) (or_introl eq_refl)) as [<- | []]. destruct (proj2 (H q) (or_intror eq_refl)) as [<- | []]. reflexivity.
  - inversion N as [|? ? N1 _]; subst. destruct (proj1 (H a)) as [-> | ->]; [now left| |]; destruct (proj1 (H b)) as [-> | ->]; try (now right; left); auto.
    + destruct N1. now left.
    + destruct N1. now left.
  - exfalso. inversion N as [|? ? N1 N2]; subst. inversion N2 as [|? ? N3 N4]; subst.
    assert (A1 : a = p \/ a = q) by (apply H; now left). assert (A2 : b = p \/ b = q) by (apply H; right; now left).
    assert (A3 : c = p \/ c = q) by (apply H; right; right; now left).
    assert (a <> b) by (intros ->; apply N1; now left). assert (a <> c) by (intros ->; apply N1; right; now left). assert (b <> c) by (intros ->; apply N3; now left).
    destruct A1, A2, A3; congruence.
Qed.
Lemma interface_owner F p q f : interface F p q -> face F p = Some f -> (List.length f = 3 \/ List.length f = 4) ->
  let conne := owners (of_kind 3 (occurrences F)) ++ owners (of_kind 4 (occurrences F)) in In [p; q] conne \/ In [q; p] conne.
Proof.
  intros (NE & (f' & g & FP & FQ & P) & U) FF L conne. rewrite FP in FF. injection FF as ->.
  assert (G : exists n, (n = 3 \/ n = 4) /\ List.length f = n) by eauto. destruct G as (n & NN & LN).
  set (occ := of_kind n (occurrences F)).
  assert (N : NoDup (map fst occ)) by (apply nodup_filter_fst, occurrences_nodup).
  assert (OI : In (p, f) occ) by (apply filter_In; split; [now apply occurrences_In|]; cbn [snd]; now apply Nat.eqb_eq).
  assert (X : In (map fst (filter (fun o' => same (lexb Nat.leb) (key_of o') (key_of (p, f))) occ)) (owners occ)) by (apply owners_In; [exact N|eauto]).
  assert (Y : In (map fst (filter (fun o' => same (lexb Nat.leb) (key_of o') (key_of (p, f))) occ)) conne)
    by (unfold conne; apply in_app_iff; destruct NN; subst n; [left|right]; exact X).
  destruct (two_elems (map fst (filter (fun o' => same (lexb Nat.leb) (key_of o') (key_of (p, f))) occ)) p q) as [E | E]; auto.
  - now apply nodup_filter_fst.
  - intros r. rewrite in_map_iff. split.
    + intros ((r' & h) & <- & I). apply filter_In in I as [I S]. apply key_perm in S. cbn [fst snd] in *.
      apply filter_In in I as [I _]. apply occurrences_In in I. apply U. exists f, h. auto using Permutation_sym.
    + intros [-> | ->].
      * exists (p, f). split; [reflexivity|]. apply filter_In. split; [exact OI|]. now apply key_perm.
      * exists (q, g). split; [reflexivity|]. apply filter_In. split; [|apply key_perm; now apply Permutation_sym].
        apply filter_In. split; [now apply occurrences_In|]. cbn [snd]. rewrite <- (Permutation_length P). now apply Nat.eqb_eq.
  - rewrite <- E. now left.
  - rewrite <- E. now right.
Qed.

(** the array *)
Lemma entry_set2_same out i j x row : nth_error out i = Some row -> j < List.length row -> entry (set2 i j x out) (i, j) = Some x.
Proof.
  intros R L. unfold entry, set2. cbn [fst snd]. rewrite R. rewrite nth_set_same; [|apply nth_error_Some; congruence]. now apply nth_set_same.
Qed.
Lemma entry_set2_other out i j x p : p <> (i, j) -> entry (set2 i j x out) p = entry out p.
Proof.
  intros N. destruct p as [a b]. unfold entry, set2. cbn [fst snd]. destruct (nth_error out i) as [row|] eqn:R; [|reflexivity].
  destruct (Nat.eq_dec i a) as [-> | NE].
  - rewrite nth_set_same by (apply nth_error_Some; congruence). rewrite R. apply nth_set_other. congruence.
  - now rewrite nth_set_other.
Qed.
Definition shape (n : nat) (out : list (list Z)) : Prop := List.length out = n /\ Forall (fun r => List.length r = 6) out.
Lemma shape_set2 n out i j x : shape n out -> shape n (set2 i j x out).
Proof.
  intros [L F]. unfold set2. destruct (nth_error out i) as [row|] eqn:R; [|now split]. split; [now rewrite set_nth_length|].
  apply Forall_forall. intros r I. apply In_nth_error in I as [k K]. destruct (Nat.eq_dec i k) as [<- | NE].
  - rewrite nth_set_same in K by (apply nth_error_Some; congruence). injection K as <-. rewrite set_nth_length.
    rewrite Forall_forall in F. apply F. eapply nth_error_In; eauto.
  - rewrite nth_set_other in K by auto. rewrite Forall_forall in F. apply F. eapply nth_error_In; eauto.
Qed.
Lemma entry_set2 n out i j x : shape n out -> i < n -> j < 6 -> entry (set2 i j x out) (i, j) = Some x.
Proof.
  intros [L F] I J. destruct (nth_error out i) as [row|] eqn:R; [|apply nth_error_None in R; lia].
  eapply entry_set2_same; eauto. rewrite Forall_forall in F. rewrite (F row); [lia|]. eapply nth_error_In; eauto.
Qed.
Lemma shape_connect n out g : shape n out -> shape n (connect out g).
Proof. intros H. unfold connect. destruct g as [|[i1 j1] [|[i2 j2] [|c g]]]; auto. now do 2 apply shape_set2. Qed.
Lemma shape_fold n l : forall out, shape n out -> shape n (fold_left connect l out).
Proof. induction l as [|g l IH]; intros out S; cbn [fold_left]; auto. apply IH. now apply shape_connect. Qed.
Definition touches (g : list (nat * nat)) (p : nat * nat) : Prop := exists q, g = [p; q] \/ g = [q; p].
Lemma connect_other out g p : ~ touches g p -> entry (connect out g) p = entry out p.
Proof.
  intros N. unfold connect. destruct g as [|[i1 j1] [|[i2 j2] [|c g]]]; auto. rewrite entry_set2_other, entry_set2_other; auto.
  - intros ->. apply N. exists (i2, j2). now left.
  - intros ->. apply N. exists (i1, j1). now right.
Qed.
Lemma connect_here n out p q : shape n out -> p <> q -> fst p < n -> fst q < n -> snd p < 6 -> snd q < 6 ->
  entry (connect out [p; q]) p = Some (Z.of_nat (fst q)) /\ entry (connect out [p; q]) q = Some (Z.of_nat (fst p)).
Proof.
  intros S NE P1 Q1 P2 Q2. destruct p as [i1 j1], q as [i2 j2]. cbn [fst snd connect] in *. split.
  - rewrite entry_set2_other by auto. eapply entry_set2; eauto.
  - eapply entry_set2; eauto. now apply shape_set2.
Qed.
Lemma fold_connect n conne out p v : shape n out ->
  (forall g q, In g conne -> g = [p; q] \/ g = [q; p] -> p <> q /\ fst p < n /\ fst q < n /\ snd p < 6 /\ snd q < 6 /\ Z.of_nat (fst q) = v) ->
  (exists g, In g conne /\ touches g p) ->
  entry (fold_left connect conne out) p = Some v.
Proof.
  intros S H. revert out S. induction conne as [|g conne IH] using rev_ind; intros out S (g0 & I & T); [destruct I|].
  rewrite fold_left_app. cbn [fold_left].
  assert (S' : shape n (fold_left connect conne out)) by now apply shape_fold.
  assert (D : touches g p \/ ~ touches g p).
  { unfold touches. destruct g as [|a [|b [|c g]]]; try (right; intros (q & [X | X]); discriminate).
    assert (DEC : forall x y : nat * nat, x = y \/ x <> y) by (intros [x1 x2] [y1 y2]; destruct (Nat.eq_dec x1 y1), (Nat.eq_dec x2 y2); subst; auto; right; congruence).
    destruct (DEC a p) as [-> | NA]; [left; exists b; auto|]. destruct (DEC b p) as [-> | NB]; [left; exists a; auto|].
    right. intros (q & [X | X]); congruence. }
  destruct D as [(q & E) | N].
  - destruct (H g q) as (NE & A1 & A2 & A3 & A4 & <-); [apply in_app_iff; right; now left|exact E|]. destruct E as [-> | ->].
    + apply (connect_here n); auto.
    + apply (connect_here n _ q p); auto.
  - rewrite connect_other by auto. apply IH; auto.
    + intros g' q I' E. apply (H g' q); auto. apply in_app_iff. now left.
    + apply in_app_iff in I as [I | [<- | []]]; [eauto|contradiction].
Qed.
Lemma fold_connect_none conne out p : (forall g, In g conne -> ~ touches g p) -> entry (fold_left connect conne out) p = entry out p.
Proof.
  revert out. induction conne as [|g conne IH]; intros out H; [reflexivity|]. cbn [fold_left]. rewrite IH by (intros; apply H; now right).
  apply connect_other. apply H. now left.
Qed.

(** faces have three or four nodes, six at most per cell *)
Lemma mapM_len {A B} (f : A -> res B) l l' : mapM f l = Ok l' -> List.length l' = List.length l.
Proof.
  revert l'. induction l as [|x l IH]; intros l'; cbn [mapM]; [intros E; injection E as <-; reflexivity|].
  destruct (f x); cbn [bind]; [|discriminate]. destruct (mapM f l); cbn [bind]; [|discriminate]. intros E; injection E as <-. cbn [List.length]. f_equal. auto.
Qed.
Lemma mapM_In {A B} (f : A -> res B) l l' y : mapM f l = Ok l' -> In y l' -> exists x, In x l /\ f x = Ok y.
Proof.
  revert l'. induction l as [|x l IH]; intros l'; cbn [mapM]; [intros E; injection E as <-; intros []|].
  destruct (f x) as [b|] eqn:E1; cbn [bind]; [|discriminate]. destruct (mapM f l) as [r|]; cbn [bind]; [|discriminate]. intros E; injection E as <-.
  intros [<- | I]; [exists x; split; [now left|exact E1]|]. destruct (IH r eq_refl I) as (x' & I' & E'). exists x'. split; [now right|exact E'].
Qed.
Lemma face_table_small type t : face_table type = Some t ->
  List.length t <= 6 /\ Forall (fun f => List.length f = 3 \/ List.length f = 4) t.
Proof.
  unfold face_table. repeat match goal with |- context [if ?b then _ else _] => destruct b end; intros E; try discriminate; injection E as <-;
  (split; [cbn; lia|repeat (apply Forall_cons; [cbn; auto|]); apply Forall_nil]).
Qed.
Lemma faces_small cells F : faces cells = Ok F -> Forall (fun c => List.length c <= 6 /\ Forall (fun f => List.length f = 3 \/ List.length f = 4) c) F.
Proof.
  intros E. apply Forall_forall. intros c I. destruct (mapM_In _ _ _ _ E I) as ((t & cell) & _ & C). cbn [fst snd] in C. unfold cell_faces in C.
  destruct (face_table t) as [tab|] eqn:T; [|discriminate]. destruct (face_table_small _ _ T) as [L FF].
  split; [now rewrite (mapM_len _ _ _ C)|]. apply Forall_forall. intros f IF. destruct (mapM_In _ _ _ _ C IF) as (idx & II & TK).
  apply mapM_len in TK. rewrite TK. rewrite Forall_forall in FF. now apply FF.
Qed.
Lemma all_cells_length cells : List.length (all_cells cells) = n_cells cells.
Proof.
  unfold all_cells, n_cells. induction cells as [|b cells IH]; [reflexivity|]. cbn [map concat list_sum fold_right]. rewrite app_length, map_length. now rewrite IH.
Qed.
Lemma face_bounds cells F p f : faces cells = Ok F -> face F p = Some f ->
  fst p < n_cells cells /\ snd p < 6 /\ (List.length f = 3 \/ List.length f = 4).
Proof.
  intros E H. unfold face in H. destruct (nth_error F (fst p)) as [c|] eqn:C; [|discriminate].
  pose proof (faces_small _ _ E) as S. rewrite Forall_forall in S. destruct (S c (nth_error_In _ _ C)) as [L FF].
  split; [|split].
  - rewrite <- all_cells_length, <- (mapM_len _ _ _ E). apply nth_error_Some. congruence.
  - assert (snd p < List.length c) by (apply nth_error_Some; congruence). lia.
  - rewrite Forall_forall in FF. apply FF. eapply nth_error_In; eauto.
Qed.

Theorem connections_spec dim cells out : connections dim cells = Ok out ->
  exists F, faces cells = Ok F /\ shape (n_cells cells) out /\
  (forall p q, interface F p q -> entry out p = Some (Z.of_nat (fst q))) /\
  (forall p, fst p < n_cells cells -> snd p < 6 -> (forall q, ~ interface F p q) -> entry out p = Some (-1)%Z).
Proof.
  unfold connections. destruct (dim =? 3); cbn [guard bind]; [|discriminate]. destruct (faces cells) as [F|] eqn:E; cbn [bind]; [|discriminate].
  cbv zeta. set (conne := owners (of_kind 3 (occurrences F)) ++ owners (of_kind 4 (occurrences F))). intros X. injection X as <-.
  set (init := repeat (repeat (-1)%Z 6) (n_cells cells)).
  assert (SI : shape (n_cells cells) init).
  { split; [apply repeat_length|]. apply Forall_forall. intros r I. apply repeat_spec in I. subst r. apply repeat_length. }
  assert (PC : forall p q, In [p; q] conne -> interface F p q).
  { intros p q I. apply in_app_iff in I as [I | I]; eapply pairs_spec; eauto. }
  exists F. split; [reflexivity|]. split.
  - now apply shape_fold.
  - split.
    + intros p q I. apply (fold_connect (n_cells cells)); [exact SI| |].
      * intros g q' G EG. assert (I' : interface F p q') by (destruct EG; subst g; [now apply PC|apply interface_sym; now apply PC]).
        destruct I as (NE & (f & h & FP & FQ & P) & U). destruct I' as (NE' & (f' & h' & FP' & FQ' & P') & U').
        destruct (U q') as [-> | ->]; [exists f, h'; split; [exact FP|split; [exact FQ'|congruence]]|congruence|].
        destruct (face_bounds _ _ _ _ E FP) as (A1 & A2 & _). destruct (face_bounds _ _ _ _ E FQ) as (A3 & A4 & _). auto 10.
      * destruct I as (NE & (f & h & FP & FQ & P) & U).
        destruct (face_bounds _ _ _ _ E FP) as (_ & _ & L).
        destruct (interface_owner F p q f) as [I | I]; [split; [exact NE|split; [exists f, h; auto|exact U]]|exact FP|exact L| |]; eexists; (split; [exact I|]); exists q; auto.
    + intros p P1 P2 N. rewrite fold_connect_none.
      * unfold entry, init. destruct p as [i j]. cbn [fst snd] in *. rewrite nth_error_repeat by auto.
        change (nth_error (repeat (-1)%Z 6) j = Some (-1)%Z). now apply nth_error_repeat.
      * intros g G (q & [-> | ->]); [apply (N q); now apply PC|]. apply (N q). apply interface_sym. now apply PC.
Qed.

Lemma take_total {A} (a : list A) is : Forall (fun i => i < List.length a) is -> exists l, take a is = Ok l.
Proof.
  unfold take. induction 1 as [|i is H F IH]; cbn [mapM]; [eauto|]. unfold item at 1. destruct (nth_error a i) as [x|] eqn:E; [|apply nth_error_None in E; lia].
  cbn [bind]. destruct IH as [l ->]. cbn [bind]. eauto.
Qed.
Lemma mapM_total {A B} (f : A -> res B) l : (forall x, In x l -> exists y, f x = Ok y) -> exists l', mapM f l = Ok l'.
Proof.
  induction l as [|x l IH]; intros H; cbn [mapM]; [eauto|]. destruct (H x (or_introl eq_refl)) as [y ->]. cbn [bind].
  destruct IH as [r ->]; [intros; apply H; now right|]. cbn [bind]. eauto.
Qed.
Lemma cell_faces_total type n cell : nodes_of type = Some n -> List.length cell = n -> exists l, cell_faces type cell = Ok l.
Proof.
  unfold nodes_of, cell_faces, face_table. intros H L.
  repeat match type of H with context [if ?b then _ else _] => destruct b end; try discriminate; injection H as <-;
  apply mapM_total; intros x I; apply take_total; rewrite L;
  repeat (destruct I as [<- | I]; [repeat constructor|]); destruct I.
Qed.
Theorem connections_total cells : solid cells -> exists out, connections 3 cells = Ok out.
Proof.
  intros S. unfold connections. change (3 =? 3) with true. cbn [guard bind].
  assert (X : exists F, faces cells = Ok F).
  { apply mapM_total. intros (t & c) I. cbn [fst snd]. apply in_concat in I as (l & L & I). apply in_map_iff in L as (b & <- & B).
    apply in_map_iff in I as (c' & EQ & I). injection EQ as <- <-. unfold solid in S. rewrite Forall_forall in S. destruct (S b B) as (n & NN & FL).
    rewrite Forall_forall in FL. eapply cell_faces_total; eauto. }
  destruct X as [F ->]. cbn [bind]. eauto.
Qed.
Lemma interface_dec dim cells out F i j : connections dim cells = Ok out -> faces cells = Ok F ->
  (exists q, interface F (i, j) q) \/ ~ (exists q, interface F (i, j) q).
Proof.
  intros C FF.
    unfold connections in C. destruct (dim =? 3); cbn [guard bind] in C; [|discriminate]. rewrite FF in C. cbn [bind] in C. cbv zeta in C. injection C as <-.
    set (conne := owners (of_kind 3 (occurrences F)) ++ owners (of_kind 4 (occurrences F))) in *.
    assert (DEC : forall x y : nat * nat, {x = y} + {x <> y}) by (intros [x1 x2] [y1 y2]; destruct (Nat.eq_dec x1 y1), (Nat.eq_dec x2 y2); subst; auto; right; congruence).
    destruct (existsb (fun g => match g with [a; b] => (if DEC a (i, j) then true else false) || (if DEC b (i, j) then true else false) | _ => false end) conne) eqn:X.
    - left. apply existsb_exists in X as (g & G & X). destruct g as [|a [|b [|c g]]]; try discriminate.
      assert (IAB : interface F a b) by (apply in_app_iff in G as [G | G]; eapply pairs_spec; eauto).
      apply orb_true_iff in X as [X | X].
      + destruct (DEC a (i, j)); [subst a; eauto|discriminate].
      + destruct (DEC b (i, j)); [subst b; exists a; now apply interface_sym|discriminate].
    - right. intros (q & I). destruct I as (NE & (f & h & FP & FQ & P) & U). destruct (face_bounds _ _ _ _ FF FP) as (_ & _ & L).
      destruct (interface_owner F (i, j) q f) as [I | I]; [split; [exact NE|split; [exists f, h; auto|exact U]]|exact FP|exact L| |];
      (assert (Y : existsb (fun g => match g with [a; b] => (if DEC a (i, j) then true else false) || (if DEC b (i, j) then true else false) | _ => false end) conne = true);
       [apply existsb_exists; eexists; split; [exact I|]; cbn beta iota; destruct (DEC (i, j) (i, j)); [now rewrite ?orb_true_r|contradiction]|congruence]).
Qed.
(** Nothing but interfaces is recorded. *)
Lemma connections_only dim cells out F i j k : connections dim cells = Ok out -> faces cells = Ok F ->
  entry out (i, j) = Some (Z.of_nat k) -> exists g, interface F (i, j) (k, g).
Proof.
  intros C FF E. destruct (connections_spec _ _ _ C) as (F' & FF' & S & HI & HN). assert (F' = F) by congruence. subst F'.
  assert (B : i < n_cells cells /\ j < 6).
  { unfold entry in E. cbn [fst snd] in E. destruct (nth_error out i) as [row|] eqn:R; [|discriminate]. destruct S as [SL SF]. split.
    - rewrite <- SL. apply nth_error_Some. congruence.
    - rewrite Forall_forall in SF. rewrite <- (SF row (nth_error_In _ _ R)). apply nth_error_Some. congruence. }
  destruct B as [B1 B2].
  destruct (interface_dec _ _ _ _ i j C FF) as [(q & I) | N].
  - pose proof (HI _ _ I) as E2. rewrite E in E2. injection E2 as E2. apply Nat2Z.inj in E2. exists (snd q). destruct q as [a b]. cbn [fst snd] in *. now subst a.
  - rewrite (HN (i, j)) in E; auto.
    + injection E as E. lia.
    + intros q I. apply N. eauto.
Qed.
Theorem connections_symmetric dim cells out i j k : connections dim cells = Ok out -> entry out (i, j) = Some (Z.of_nat k) ->
  exists j', entry out (k, j') = Some (Z.of_nat i).
Proof.
  intros C E. destruct (connections_spec _ _ _ C) as (F & FF & S & HI & HN). destruct (connections_only _ _ _ _ _ _ _ C FF E) as (g & I).
  exists g. apply interface_sym in I. now apply HI in I.
Qed.
