(** Results imported in a mesh. *)
From Coq Require Import String Ascii Arith ZArith QArith Qcanon Reals Qreals Lra Bool Lia Permutation List.
From Verif Require Import Base.Str Base.Flt Model.Py Model.Dispatch Model.Numpy Model.Mesh Model.MeshOps Model.Geometry Model.Labeler Model.Output Model.Import.
From Verif Require Import Spec.Output Spec.Geometry Spec.Import.
From Verif Require Import Proofs.DictLemmas Proofs.ReorderProof Proofs.GeometryProof Proofs.ExtractProof.
Import ListNotations.
Local Open Scope nat_scope.

Lemma find_put {B} k k' (x : B) d : find_column k (put k' x d) = if streqb k' k then Some x else find_column k d.
Proof.
  unfold find_column. induction d as [|[a b] d IH]; cbn [put find fst].
  - destruct (streqb k' k); reflexivity.
  - destruct (streqb k' a) eqn:E; cbn [find fst].
    + apply streqb_eq in E as ->. destruct (streqb a k) eqn:F; reflexivity.
    + destruct (streqb a k) eqn:F; [|exact IH]. destruct (streqb k' k) eqn:G; [|reflexivity].
      apply streqb_eq in F, G. subst. rewrite streqb_refl in E. discriminate.
Qed.
Lemma find_update {B} k (e d : list (str * B)) : NoDup (map fst e) ->
  find_column k (update d e) = match find_column k e with Some x => Some x | None => find_column k d end.
Proof.
  unfold update. revert d. induction e as [|[a b] e IH]; intros d N; [reflexivity|]. cbn [fold_left fst snd map] in *. inversion N as [|? ? H1 H2]; subst.
  rewrite IH by assumption. rewrite find_put. unfold find_column at 3. cbn [find fst]. fold (@find_column B).
  destruct (streqb a k) eqn:E; [|reflexivity]. apply streqb_eq in E as ->. cbn [option_map snd].
  destruct (find_column k e) eqn:F; [|reflexivity]. exfalso. apply H1. unfold find_column in F. destruct (find _ e) as [[k' x]|] eqn:G; [|discriminate].
  apply find_some in G as (G1 & G2). apply streqb_eq in G2. cbn in G2. subst. apply (in_map fst) in G1. exact G1.
Qed.
Lemma find_none {B} k (e : list (str * B)) : ~ In k (map fst e) -> find_column k e = None.
Proof.
  intros N. unfold find_column. destruct (find _ e) as [[a b]|] eqn:F; [|reflexivity]. exfalso. apply find_some in F as (F1 & F2). apply streqb_eq in F2. cbn in F2. subst.
  apply N. apply (in_map fst) in F1. exact F1.
Qed.
Lemma find_in {B} k x (e : list (str * B)) : NoDup (map fst e) -> In (k, x) e -> find_column k e = Some x.
Proof.
  intros N I. unfold find_column. induction e as [|[a b] e IH]; [destruct I|]. cbn [map fst] in N. inversion N as [|? ? H1 H2]; subst. cbn [find fst].
  destruct I as [E|I]; [injection E as -> ->; now rewrite streqb_refl|]. destruct (streqb a k) eqn:E; [|auto]. apply streqb_eq in E as ->. exfalso. apply H1.
  apply (in_map fst) in I. exact I.
Qed.

(** ** Elements *)
Theorem import_elements : forall ll o own labels m, o_type o = Element -> o_labels o = Some (map single own) -> NoDup own ->
  labeler (Z.of_nat (n_cells (cells m))) ll = Ok labels -> List.length labels = n_cells (cells m) -> Permutation own labels ->
  NoDup (map fst (o_data o)) -> (forall k c, In (k, c) (o_data o) -> List.length c = List.length own) ->
  exists m' o', import_one ll o m = Ok (m', o') /\ geometry_kept m m' /\
    (forall k, ~ In k (map fst (o_data o)) -> find_column k (cell_data m') = find_column k (cell_data m)) /\
    forall k c, In (k, c) (o_data o) -> exists c', find_column k (cell_data m') = Some c' /\ List.length c' = n_cells (cells m) /\
      forall i j l, nth_error own i = Some l -> nth_error labels j = Some l -> nth_error c' j = option_map Num (nth_error c i).
Proof.
  intros ll o own labels m T L N E EL P ND C. destruct (reorder_keeps o own labels L N P C) as (o' & R & T' & F' & Ti & L' & Na & D).
  pose proof (Permutation_length P) as PL. unfold import_one. rewrite T, L. cbn [bind]. rewrite map_length, PL, EL, Nat.eqb_refl. cbn [guard bind]. rewrite E. cbn [bind]. rewrite R. cbn [bind].
  unfold names in Na. eexists _, _. split; [reflexivity|]. split; [unfold geometry_kept, set_cells; cbn; tauto|].
  assert (K : map fst (map (fun kc => (fst kc, map Num (snd kc))) (o_data o')) = map fst (o_data o)) by (rewrite map_map; cbn; exact Na).
  cbn [set_cells cell_data]. split.
  - intros k I. rewrite find_update by (rewrite K; exact ND). rewrite find_none by (rewrite K; exact I). reflexivity.
  - intros k c I. apply In_nth_error in I as (n & I). destruct (D n k c I) as (c' & H1 & H2 & H3). exists (map Num c').
    rewrite find_update by (rewrite K; exact ND). rewrite (find_in k (map Num c')); [|rewrite K; exact ND|].
    2: { apply nth_error_In in H1. apply (in_map (fun kc => (fst kc, map Num (snd kc)))) in H1. exact H1. }
    split; [reflexivity|]. split; [rewrite map_length; congruence|]. intros i j l G1 G2. rewrite <- (H3 i j l G1 G2). destruct (nth_error c' j) eqn:Q.
    + now apply map_nth_error.
    + apply nth_error_None in Q. apply nth_error_None. now rewrite map_length.
Qed.
Theorem import_refuses : forall ll o own labels m, o_type o = Element -> o_labels o = Some (map single own) ->
  labeler (Z.of_nat (n_cells (cells m))) ll = Ok labels -> List.length labels = n_cells (cells m) ->
  (List.length own <> n_cells (cells m) -> import_one ll o m = Err ValueError) /\
  (List.length own = n_cells (cells m) -> (exists l, In l labels /\ ~ In l own) -> import_one ll o m = Err KeyError).
Proof.
  intros ll o own labels m T L E EL. unfold import_one. rewrite T, L. cbn [bind]. rewrite map_length. destruct (reorder_refuses o own labels L) as (R1 & R2). split.
  - intros H. apply Nat.eqb_neq in H. rewrite H. reflexivity.
  - intros H X. rewrite H, Nat.eqb_refl. cbn [guard bind]. rewrite E. cbn [bind]. rewrite R2; [reflexivity|congruence|exact X].
Qed.

(** ** Flows *)
Lemma arrow_ext (a b c x y z : R) : a = x -> b = y -> c = z -> (a, b, c) = (x, y, z).
Proof. now intros -> -> ->. Qed.
Lemma total_from l a : fold_left arrow_add l a = plus3 a (total l).
Proof.
  unfold total. revert a. induction l as [|b l IH]; intros a; cbn [fold_left].
  - destruct a as [[a1 a2] a3]. cbn. apply arrow_ext; lra.
  - rewrite (IH (arrow_add a b)), (IH (arrow_add arrow0 b)). destruct a as [[a1 a2] a3], b as [[b1 b2] b3], (fold_left arrow_add l arrow0) as [[c1 c2] c3]. cbn. apply arrow_ext; lra.
Qed.
Lemma total_snoc l a : total (l ++ [a]) = plus3 (total l) a.
Proof. unfold total. rewrite fold_left_app. cbn [fold_left]. destruct (fold_left arrow_add l arrow0) as [[x y] z], a as [[a1 a2] a3]. reflexivity. Qed.
Lemma plus3_assoc a b c : plus3 (plus3 a b) c = plus3 a (plus3 b c).
Proof. destruct a as [[a1 a2] a3], b as [[b1 b2] b3], c as [[c1 c2] c3]. cbn. apply arrow_ext; lra. Qed.
Lemma plus3_0 a : plus3 a zero3 = a.
Proof. destruct a as [[a1 a2] a3]. cbn. apply arrow_ext; lra. Qed.
Lemma plus3_0l a : plus3 zero3 a = a.
Proof. destruct a as [[a1 a2] a3]. cbn. apply arrow_ext; lra. Qed.

Lemma norm_zero x y z : sqrt (x * x + y * y + z * z) = 0%R -> (x, y, z) = zero3.
Proof.
  intros E. apply sqrt_eq_0 in E; [|nra]. apply arrow_ext; nra.
Qed.
Lemma norm_flip a b : norm3 (minus3 a b) = norm3 (minus3 b a).
Proof. destruct a as [[a1 a2] a3], b as [[b1 b2] b3]. cbn. f_equal. lra. Qed.
Lemma direction_ok pa pb : pa <> pb -> exists l, direction pa pb = Ok l /\
  (forall v, arrow_mul v l = towards pb pa v) /\ (forall v, arrow_mul v l = towards pa pb (- v)).
Proof.
  destruct pa as [[a1 a2] a3], pb as [[b1 b2] b3]. intros N. unfold direction. destruct (Req_EM_T _ 0) as [E|E].
  - exfalso. apply norm_zero in E. unfold zero3 in E. injection E as E1 E2 E3. apply N. apply arrow_ext; lra.
  - eexists. split; [reflexivity|]. split; intros v.
    + unfold towards. cbn. apply arrow_ext; field; exact E.
    + unfold towards. rewrite norm_flip. cbn. apply arrow_ext; field; exact E.
Qed.

Lemma set_nth_same {A} i (x : A) l : i < List.length l -> nth_error (set_nth i x l) i = Some x.
Proof. revert i. induction l as [|a l IH]; intros [|i] H; cbn in *; try lia; auto. apply IH. lia. Qed.
Lemma set_nth_other {A} i j (x : A) l : i <> j -> nth_error (set_nth i x l) j = nth_error l j.
Proof. revert i j. induction l as [|a l IH]; intros [|i] [|j] H; cbn; auto; try contradiction. Qed.
Lemma set_nth_length {A} i (x : A) l : List.length (set_nth i x l) = List.length l.
Proof. revert i. induction l as [|a l IH]; intros [|i]; cbn; auto. Qed.

Section Flows.
Variables (labels : list str) (cs : list (list Qc)) (n : nat) (pos : str -> xyz -> Prop).
Hypothesis LN : NoDup labels.
Hypothesis LL : List.length labels = n.
Hypothesis PC : forall j l, nth_error labels j = Some l -> exists x y z, nth_error cs j = Some [x; y; z] /\ pos l (Q2R (this x), Q2R (this y), Q2R (this z)).
Hypothesis PU : forall l p q, pos l p -> pos l q -> p = q.
Definition apart (ab : str * str) : Prop := In (fst ab) labels /\ In (snd ab) labels /\ forall pa pb, pos (fst ab) pa -> pos (snd ab) pb -> pa <> pb.

Lemma index_ok l : In l labels -> exists i, index_of labels l = Ok i /\ nth_error labels i = Some l.
Proof.
  intros I. apply In_nth_error in I as (i & I). exists i. split; [|exact I]. unfold index_of. now rewrite (last_index_nodup _ _ _ LN I).
Qed.
(** What row adds to the list of a cell. *)
Lemma row_ok cols data i a b : apart (a, b) -> List.length data = List.length cols ->
  (forall d, In d data -> List.length (snd d) = n) -> (forall c, In c cols -> exists x, nth_error (snd c) i = Some x /\ finite x) ->
  exists data', flow_row labels cs cols data (i, [a; b]) = Ok data' /\
    Forall2 (fun dc d' => fst d' = fst (fst dc) /\ List.length (snd d') = n /\
      forall j l, nth_error labels j = Some l -> exists L L' x, nth_error (snd (fst dc)) j = Some L /\ nth_error (snd d') j = Some L' /\
        nth_error (snd (snd dc)) i = Some x /\
        forall rows s, inflow pos l rows s -> exists s', inflow pos l (((a, b), amount x) :: rows) s' /\ plus3 (total L') s = plus3 (total L) s') (combine data cols) data'.
Proof.
  intros (IA & IB & AP) DL DN CX. cbn [fst snd] in *. destruct (index_ok a IA) as (i1 & X1 & N1). destruct (index_ok b IB) as (i2 & X2 & N2).
  destruct (PC _ _ N1) as (x1 & y1 & z1 & C1 & P1). destruct (PC _ _ N2) as (x2 & y2 & z2 & C2 & P2).
  unfold flow_row. cbn [snd fst]. rewrite X1. cbn [bind]. rewrite X2. cbn [bind]. rewrite C1, C2. unfold place3. cbn [bind].
  destruct (direction_ok _ _ (AP _ _ P1 P2)) as (line & D & T1 & T2). rewrite D. cbn [bind].
  assert (B1 : i1 < n) by (rewrite <- LL; apply nth_error_Some; congruence). assert (B2 : i2 < n) by (rewrite <- LL; apply nth_error_Some; congruence).
  clear DL D. assert (Q : forall dc, In dc (combine data cols) -> List.length (snd (fst dc)) = n /\ exists x, nth_error (snd (snd dc)) i = Some x /\ finite x).
  { intros [d c] I. split; [apply DN; eapply in_combine_l; eauto|apply CX; eapply in_combine_r; eauto]. }
  induction (combine data cols) as [|dc r IH]; cbn [mapM]; [exists []; split; [reflexivity|constructor]|].
  destruct (Q dc (or_introl eq_refl)) as (QL & x & QX & (s0 & m0 & e0 & ->)).
  unfold flow_cell at 1. rewrite QX. cbn [real_of bind].
  set (v := ((if s0 then -1 else 1) * IZR m0 * powerRZ 2 e0)%R).
  set (iv := if Rlt_dec 0 v then i1 else i2). assert (BV : iv < n) by (unfold iv; destruct (Rlt_dec 0 v); assumption).
  unfold append_at. destruct (nth_error (snd (fst dc)) iv) as [L|] eqn:EL; [|exfalso; apply nth_error_None in EL; lia]. cbn [bind].
  destruct IH as (data' & -> & F); [intros; apply Q; now right|]. cbn [bind]. eexists. split; [reflexivity|]. constructor; [|exact F]. cbn [fst snd].
  split; [reflexivity|]. split; [now rewrite set_nth_length|]. intros j l NJ. assert (BJ : j < n) by (rewrite <- LL; apply nth_error_Some; congruence).
  destruct (Nat.eq_dec iv j) as [EJ|NE]; [rewrite <- EJ in NJ; rewrite <- EJ; clear EJ j BJ|].
  - exists L, (L ++ [arrow_mul v line]), (Fin s0 m0 e0). split; [exact EL|]. split; [apply set_nth_same; lia|]. split; [exact QX|].
    intros rows s HS. change (amount (Fin s0 m0 e0)) with v. rewrite total_snoc, plus3_assoc. unfold iv in *. destruct (Rlt_dec 0 v) as [G|G].
    + assert (a = l) by congruence. subst l. eexists. split; [eapply inflow_first; eauto|]. now rewrite T1.
    + assert (b = l) by congruence. subst l. destruct (Rlt_dec v 0) as [G'|G'].
      * eexists. split; [eapply inflow_second; eauto|]. now rewrite T2.
      * assert (Z : v = 0%R) by lra. exists s. split; [apply inflow_other; [lra|lra|exact HS]|]. f_equal. rewrite Z. destruct line as [[u1 u2] u3], s as [[s1 s2] s3]. cbn. apply arrow_ext; lra.
  - destruct (nth_error (snd (fst dc)) j) as [L0|] eqn:E0; [|exfalso; apply nth_error_None in E0; lia].
    exists L0, L0, (Fin s0 m0 e0). split; [reflexivity|]. split; [rewrite set_nth_other by assumption; exact E0|]. split; [exact QX|].
    intros rows s HS. change (amount (Fin s0 m0 e0)) with v. exists s. split; [|reflexivity]. unfold iv in NE. apply inflow_other; [| |exact HS].
    + intros G E. subst a. destruct (Rlt_dec 0 v); [|contradiction]. apply NE. apply (proj1 (NoDup_nth_error labels) LN); [lia|congruence].
    + intros G E. subst b. destruct (Rlt_dec 0 v); [lra|]. apply NE. apply (proj1 (NoDup_nth_error labels) LN); [lia|congruence].
Qed.

Definition amounts_from (i : nat) (c : list flt) : list R := map amount (skipn i c).
Lemma skipn_nth {A} i (l : list A) x : nth_error l i = Some x -> skipn i l = x :: skipn (S i) l.
Proof. revert i. induction l as [|a l IH]; intros [|i] E; cbn in *; try discriminate; [congruence|]. rewrite (IH _ E). reflexivity. Qed.

Lemma rows_ok cols pairs : forall i data, Forall apart pairs -> List.length data = List.length cols ->
  (forall d, In d data -> List.length (snd d) = n) -> (forall c, In c cols -> List.length (snd c) = i + List.length pairs /\ Forall finite (snd c)) ->
  exists data', foldM (flow_row labels cs cols) data (combine (seq i (List.length pairs)) (map (fun ab => [fst ab; snd ab]) pairs)) = Ok data' /\
    Forall2 (fun dc d' => fst d' = fst (fst dc) /\ List.length (snd d') = n /\
      forall j l, nth_error labels j = Some l -> exists L L' s, nth_error (snd (fst dc)) j = Some L /\ nth_error (snd d') j = Some L' /\
        inflow pos l (combine pairs (amounts_from i (snd (snd dc)))) s /\ total L' = plus3 (total L) s) (combine data cols) data'.
Proof.
  induction pairs as [|[a b] pairs IH]; intros i data AP DL DN CX.
  - exists data. split; [reflexivity|]. clear CX. revert cols DL. induction data as [|d data IHd]; intros [|c cols] DL; try discriminate; [constructor|]. cbn [combine]. constructor.
    + cbn [fst snd]. split; [reflexivity|]. split; [apply DN; now left|]. intros j l NJ.
      destruct (nth_error (snd d) j) as [L|] eqn:E. 2: { exfalso. apply nth_error_None in E. rewrite (DN d (or_introl eq_refl)) in E. assert (j < List.length labels) by (apply nth_error_Some; congruence). lia. }
      exists L, L, zero3. split; [reflexivity|]. split; [reflexivity|]. split; [constructor|]. now rewrite plus3_0.
    + apply IHd; [intros; apply DN; now right|]. cbn in DL. lia.
  - pose proof (Forall_inv AP) as A1. pose proof (Forall_inv_tail AP) as A2. cbn [List.length seq map combine foldM fst snd].
    assert (CX1 : forall c, In c cols -> exists x, nth_error (snd c) i = Some x /\ finite x).
    { intros c I. destruct (CX c I) as (C1 & C2). cbn in C1. destruct (nth_error (snd c) i) as [x|] eqn:E; [|apply nth_error_None in E; lia]. exists x. split; [reflexivity|].
      rewrite Forall_forall in C2. apply C2. eapply nth_error_In; eauto. }
    destruct (row_ok cols data i a b A1 DL DN CX1) as (data1 & E1 & F1). rewrite E1. cbn [bind].
    assert (L1 : List.length data1 = List.length cols) by (apply f2_length in F1; rewrite combine_length, DL, Nat.min_id in F1; congruence).
    assert (N1 : forall d, In d data1 -> List.length (snd d) = n) by (intros d I; destruct (Forall2_in_right _ _ _ _ F1 I) as (dc & _ & (_ & H & _)); exact H).
    destruct (IH (S i) data1 A2 L1 N1) as (data2 & E2 & F2). { intros c I. destruct (CX c I) as (C1 & C2). cbn in C1. split; [lia|exact C2]. }
    exists data2. split; [exact E2|]. clear E1 E2 IH DN N1 CX CX1 AP A1 A2. revert data1 data2 cols DL L1 F1 F2. induction data as [|d data IHd]; intros [|d1 data1] data2 [|c cols] DL L1 F1 F2; try discriminate; cbn [combine] in *.
    + inversion F2; subst. constructor.
    + inversion F1 as [|? ? ? ? (G1 & G2 & G3) F1']; subst. inversion F2 as [|? d2 ? data2' (H1 & H2 & H3) F2']; subst. constructor.
      2: { apply (IHd data1 data2' cols); cbn in *; auto; lia. }
      cbn [fst snd] in *. split; [congruence|]. split; [exact H2|]. intros j l NJ. destruct (G3 j l NJ) as (L & L' & x & K1 & K2 & K3 & K4). destruct (H3 j l NJ) as (M & M' & s & J1 & J2 & J3 & J4).
      assert (M = L') by congruence. subst M. destruct (K4 _ _ J3) as (s' & S1 & S2). exists L, M', s'. split; [exact K1|]. split; [exact J2|]. split; [|congruence].
      unfold amounts_from in *. rewrite (skipn_nth _ _ _ K3). cbn [map combine]. exact S1.
Qed.
Lemma flows_ok cols pairs : Forall apart pairs ->
  (forall c, In c cols -> List.length (snd c) = List.length pairs /\ Forall finite (snd c)) ->
  exists data, flows labels cs n (map (fun ab => [fst ab; snd ab]) pairs) cols = Ok data /\
    Forall2 (fun c d => fst d = fst c /\ List.length (snd d) = n /\
      forall j l, nth_error labels j = Some l -> exists s, nth_error (snd d) j = Some s /\ inflow pos l (combine pairs (map amount (snd c))) s) cols data.
Proof.
  intros AP CX. unfold flows, numbered. rewrite map_length.
  destruct (rows_ok cols pairs 0 (map (fun kc => (fst kc, repeat [arrow0] n)) cols) AP) as (data & E & F).
  - apply map_length.
  - intros d I. apply in_map_iff in I as (c & <- & _). cbn. apply repeat_length.
  - intros c I. destruct (CX c I). auto.
  - rewrite E. cbn [bind]. eexists. split; [reflexivity|]. clear E CX AP. revert data F. induction cols as [|c cols IH]; intros data F; cbn [map combine] in F.
    + inversion F; subst. constructor.
    + inversion F as [|? d ? data' (G1 & G2 & G3) F']; subst. cbn [map]. constructor; [|apply IH; exact F'].
      cbn [fst snd] in *. split; [exact G1|]. split; [now rewrite map_length|]. intros j l NJ. destruct (G3 j l NJ) as (L & L' & s & H1 & H2 & H3 & H4).
      exists s. split; [|exact H3]. etransitivity; [exact (map_nth_error total _ _ H2)|]. f_equal. rewrite H4. apply nth_error_In in H1. apply repeat_spec in H1. subst L. cbn.
      destruct s as [[s1 s2] s3]. apply arrow_ext; lra.
Qed.
Lemma flows_unknown cols pairs a b : In (a, b) pairs -> ~ (In a labels /\ In b labels) ->
  Forall (fun ab => In (fst ab) labels -> In (snd ab) labels -> apart ab) pairs ->
  (forall c, In c cols -> List.length (snd c) = List.length pairs /\ Forall finite (snd c)) ->
  flows labels cs n (map (fun ab => [fst ab; snd ab]) pairs) cols = Err KeyError.
Proof.
  intros I N AP CX. apply in_split in I as (front & rest & ->).
  (* the first unknown pair *)
  assert (X : exists f a0 b0 r, front ++ (a, b) :: rest = f ++ (a0, b0) :: r /\ ~ (In a0 labels /\ In b0 labels) /\ Forall (fun ab => In (fst ab) labels /\ In (snd ab) labels) f).
  { clear AP CX. induction front as [|[a0 b0] front IH].
    - exists [], a, b, rest. auto.
    - destruct (in_dec str_eq_dec a0 labels) as [IA|IA]; [destruct (in_dec str_eq_dec b0 labels) as [IB|IB]|].
      + destruct IH as (f & a1 & b1 & r & E & U & G). exists ((a0, b0) :: f), a1, b1, r. cbn [app]. rewrite E. split; [reflexivity|]. split; [exact U|]. constructor; auto.
      + exists [], a0, b0, (front ++ (a, b) :: rest). split; [reflexivity|]. split; [tauto|constructor].
      + exists [], a0, b0, (front ++ (a, b) :: rest). split; [reflexivity|]. split; [tauto|constructor]. }
  destruct X as (f & a0 & b0 & r & E & U & G). rewrite E in *. clear E front rest a b N.
  unfold flows, numbered. rewrite map_length, app_length, seq_app, map_app. cbn [List.length map].
  assert (EC : forall A B (x1 y1 : list A) (x2 y2 : list B), List.length x1 = List.length x2 -> combine (x1 ++ y1) (x2 ++ y2) = combine x1 x2 ++ combine y1 y2).
  { intros A B x1. induction x1 as [|u x1 IH]; intros y1 [|w x2] y2 H; try discriminate; [reflexivity|]. cbn. f_equal. apply IH. cbn in H. lia. }
  rewrite EC by (rewrite seq_length, map_length; reflexivity).
  assert (FA : forall A B (g : A -> B -> res A) x y d, foldM g d (x ++ y) = let* d' := foldM g d x in foldM g d' y).
  { intros A B g x. induction x as [|u x IH]; intros y d; [reflexivity|]. cbn [app foldM]. destruct (g d u); cbn [bind]; auto. }
  rewrite FA. apply Forall_app in AP as (AP1 & AP2).
  assert (AF : Forall apart f). { rewrite Forall_forall in *. intros ab I. destruct (G ab I). apply AP1; auto. }
  (* columns cut to the length of the front *)
  assert (CUT : forall d e k, (forall c, In c cols -> k + List.length f <= List.length (snd c)) ->
    foldM (flow_row labels cs cols) d (combine (seq k (List.length f)) (map (fun ab => [fst ab; snd ab]) f)) = Ok e \/ True) by (intros; now right).
  clear CUT.
  assert (CUT : forall q k d, (forall c, In c cols -> k + List.length q <= List.length (snd c)) -> k + List.length q <= List.length f ->
    foldM (flow_row labels cs cols) d (combine (seq k (List.length q)) (map (fun ab => [fst ab; snd ab]) q)) =
    foldM (flow_row labels cs (map (fun c => (fst c, firstn (List.length f) (snd c))) cols)) d (combine (seq k (List.length q)) (map (fun ab => [fst ab; snd ab]) q))).
  { induction q as [|[u w] q IH]; intros k d H1 H2; [reflexivity|]. cbn [List.length seq map combine foldM fst snd].
    assert (R : flow_row labels cs cols d (k, [u; w]) = flow_row labels cs (map (fun c => (fst c, firstn (List.length f) (snd c))) cols) d (k, [u; w])).
    { unfold flow_row. cbn [snd fst]. destruct (index_of labels u); cbn [bind]; [|reflexivity]. destruct (index_of labels w); cbn [bind]; [|reflexivity].
      destruct (match nth_error cs a with Some c => place3 c | None => Err IndexError end); cbn [bind]; [|reflexivity].
      destruct (match nth_error cs a1 with Some c => place3 c | None => Err IndexError end); cbn [bind]; [|reflexivity]. destruct (direction _ _); cbn [bind]; [|reflexivity].
      clear IH H1. cbn [List.length] in H2. revert d. induction cols as [|c cols' IHc]; intros d; [destruct d; reflexivity|]. destruct d as [|d1 d]; [reflexivity|]. cbn [combine map mapM].
      assert (E1 : forall o p, flow_cell k a a1 p (o, c) = flow_cell k a a1 p (o, (fst c, firstn (List.length f) (snd c)))).
      { intros o p. unfold flow_cell. cbn [fst snd]. replace (nth_error (firstn (List.length f) (snd c)) k) with (nth_error (snd c) k); [reflexivity|].
        assert (KL : k < List.length f) by lia. revert KL. generalize (List.length f) (snd c). clear. intros m l. revert k l. induction m as [|m IH]; intros k l H; [lia|]. destruct l as [|y l]; [destruct k; reflexivity|]. destruct k; [reflexivity|]. cbn. apply IH. lia. }
      rewrite E1. rewrite IHc. reflexivity. intros c0 I0. apply CX. now right. }
    rewrite R. destruct (flow_row labels cs (map _ cols) d (k, [u; w])); cbn [bind]; [|reflexivity]. cbn [List.length] in *. apply IH; [intros c I; specialize (H1 c I); lia|lia]. }
  rewrite CUT; [|intros c I; destruct (CX c I) as (H & _); rewrite app_length in H; lia|lia].
  destruct (rows_ok (map (fun c => (fst c, firstn (List.length f) (snd c))) cols) f 0 (map (fun kc => (fst kc, repeat [arrow0] n)) cols) AF) as (data & E & F).
  - now rewrite !map_length.
  - intros d I. apply in_map_iff in I as (c & <- & _). cbn. apply repeat_length.
  - intros c I. apply in_map_iff in I as (c0 & <- & I). cbn [snd]. destruct (CX c0 I) as (C1 & C2). rewrite app_length in C1. split; [rewrite firstn_length; lia|].
    rewrite <- (firstn_skipn (List.length f) (snd c0)) in C2. apply Forall_app in C2. tauto.
  - rewrite E. cbn [bind seq combine foldM]. unfold flow_row at 1. cbn [snd]. 
    assert (KE : forall l, ~ In l labels -> index_of labels l = Err KeyError) by (intros l H; unfold index_of; apply last_index_none in H; now rewrite H).
    cbn [fst snd]. destruct (in_dec str_eq_dec a0 labels) as [IA|IA].
    + destruct (index_ok a0 IA) as (i & -> & _). cbn [bind fst snd]. rewrite KE; [reflexivity|tauto].
    + rewrite KE by assumption. reflexivity.
Qed.
End Flows.

Lemma place_unique points bs labels : NoDup labels -> forall l p q, cell_place points bs labels l p -> cell_place points bs labels l q -> p = q.
Proof.
  intros N l p q (j & tc & x & y & z & H1 & H2 & H3 & ->) (j' & tc' & x' & y' & z' & H1' & H2' & H3' & ->).
  assert (j = j') by (apply (proj1 (NoDup_nth_error labels) N); [apply nth_error_Some; congruence|congruence]). subst j'. assert (tc' = tc) by congruence. subst tc'.
  pose proof (centre_unique _ _ _ _ _ H3 H3') as E. injection E as -> -> ->. reflexivity.
Qed.
Lemma typed_length bs : List.length (typed_cells bs) = n_cells bs.
Proof. unfold typed_cells, n_cells. induction bs as [|b bs IH]; [reflexivity|]. cbn [flat_map map list_sum fold_right]. rewrite app_length, map_length, IH. reflexivity. Qed.
Lemma centers_place {V} (m : mesh Qc V) cs labels : dim m = 3 -> centers m = Ok cs -> List.length labels = n_cells (cells m) ->
  forall j l, nth_error labels j = Some l -> exists x y z, nth_error cs j = Some [x; y; z] /\
    cell_place (points m) (cells m) labels l (Q2R (this x), Q2R (this y), Q2R (this z)).
Proof.
  intros D E L j l NJ. pose proof (centers_spec m cs E) as F. rewrite D in F.
  assert (B : j < List.length (typed_cells (cells m))) by (rewrite typed_length, <- L; apply nth_error_Some; congruence).
  apply nth_error_Some in B. destruct (nth_error (typed_cells (cells m)) j) as [tc|] eqn:T; [clear B|congruence].
  assert (X : exists c, nth_error cs j = Some c /\ centre_of 3 (points m) (snd tc) c).
  { clear E L NJ. revert j T. induction F as [|u c us cs' R F IH]; intros [|j] T; try discriminate; [injection T as <-; eexists; split; [reflexivity|exact R]|]. exact (IH j T). }
  destruct X as (c & C1 & C2). pose proof C2 as (CL & _). destruct c as [|x [|y [|z [|]]]]; try discriminate. exists x, y, z. split; [exact C1|].
  exists j, tc, x, y, z. auto.
Qed.

Theorem import_flows : forall ll o pairs labels m, o_type o = Connection -> o_labels o = Some (map pair_labels pairs) ->
  dim m = 3 -> cells m <> [] -> sound 3 (points m) (cells m) ->
  labeler (Z.of_nat (n_cells (cells m))) ll = Ok labels -> List.length labels = n_cells (cells m) -> NoDup labels ->
  Forall (connected (cell_place (points m) (cells m) labels) labels) pairs ->
  NoDup (map fst (o_data o)) -> (forall k c, In (k, c) (o_data o) -> List.length c = List.length pairs /\ Forall finite c) ->
  exists m', import_one ll o m = Ok (m', o) /\ geometry_kept m m' /\
    (forall k, ~ In k (map fst (o_data o)) -> find_column k (cell_data m') = find_column k (cell_data m)) /\
    forall k c, In (k, c) (o_data o) -> exists c', find_column k (cell_data m') = Some c' /\ List.length c' = n_cells (cells m) /\
      forall j l, nth_error labels j = Some l -> exists s, nth_error c' j = Some (Arrow s) /\
        inflow (cell_place (points m) (cells m) labels) l (combine pairs (map amount c)) s.
Proof.
  intros ll o pairs labels m T L D NE SO E EL N CO ND C. unfold import_one. rewrite T.
  destruct (centers_total m NE) as (cs & EC); [now rewrite D|]. rewrite EC. cbn [bind]. rewrite E. cbn [bind]. rewrite L. cbn [bind].
  destruct (flows_ok labels cs (n_cells (cells m)) _ N EL (centers_place m cs labels D EC EL) (o_data o) pairs CO) as (data & EF & F).
  { intros [k c] I. exact (C k c I). }
  change (map pair_labels pairs) with (map (fun ab : str * str => [fst ab; snd ab]) pairs). rewrite EF. cbn [bind].
  eexists. split; [reflexivity|]. split; [unfold geometry_kept, set_cells; cbn; tauto|].
  assert (K : map fst (map (fun kd => (fst kd, map Arrow (snd kd))) data) = map fst (o_data o)).
  { rewrite map_map. cbn [fst]. clear - F. induction F as [|c d cs' ds (H & _) F IH]; [reflexivity|]. cbn [map]. f_equal; [exact H|exact IH]. }
  cbn [set_cells cell_data]. split.
  - intros k I. rewrite find_update by (rewrite K; exact ND). rewrite find_none by (rewrite K; exact I). reflexivity.
  - intros k c I.
    assert (X : exists d, In d data /\ fst d = k /\ List.length (snd d) = n_cells (cells m) /\ forall j l, nth_error labels j = Some l ->
      exists s, nth_error (snd d) j = Some s /\ inflow (cell_place (points m) (cells m) labels) l (combine pairs (map amount c)) s).
    { clear - F I. induction F as [|c0 d cs' ds (H1 & H2 & H3) F IH]; [destruct I|]. destruct I as [->|I]; [exists d; cbn in *; auto|]. destruct (IH I) as (d' & I' & R). exists d'. split; [now right|exact R]. }
    destruct X as (d & ID & <- & DL & DS). exists (map Arrow (snd d)). rewrite find_update by (rewrite K; exact ND). rewrite (find_in (fst d) (map Arrow (snd d))); [|rewrite K; exact ND|].
    2: { apply (in_map (fun kd => (fst kd, map Arrow (snd kd)))) in ID. exact ID. }
    split; [reflexivity|]. split; [now rewrite map_length|]. intros j l NJ. destruct (DS j l NJ) as (s & H1 & H2). exists s. split; [|exact H2]. now apply map_nth_error.
Qed.
Theorem import_unknown : forall ll o pairs labels m, o_type o = Connection -> o_labels o = Some (map pair_labels pairs) ->
  dim m = 3 -> cells m <> [] -> sound 3 (points m) (cells m) ->
  labeler (Z.of_nat (n_cells (cells m))) ll = Ok labels -> List.length labels = n_cells (cells m) -> NoDup labels ->
  (exists a b, In (a, b) pairs /\ ~ (In a labels /\ In b labels)) ->
  Forall (fun ab => In (fst ab) labels -> In (snd ab) labels -> connected (cell_place (points m) (cells m) labels) labels ab) pairs ->
  (forall k c, In (k, c) (o_data o) -> List.length c = List.length pairs /\ Forall finite c) ->
  import_one ll o m = Err KeyError.
Proof.
  intros ll o pairs labels m T L D NE SO E EL N (a & b & I & U) CO C. unfold import_one. rewrite T.
  destruct (centers_total m NE) as (cs & EC); [now rewrite D|]. rewrite EC. cbn [bind]. rewrite E. cbn [bind]. rewrite L. cbn [bind].
  change (map pair_labels pairs) with (map (fun ab : str * str => [fst ab; snd ab]) pairs).
  rewrite (flows_unknown labels cs (n_cells (cells m)) _ N EL (centers_place m cs labels D EC EL) (o_data o) pairs a b I U CO); [reflexivity|].
  intros [k c] I'. exact (C k c I').
Qed.

(** The same flows written in the other direction. *)
Lemma inflow_unique (pos : str -> xyz -> Prop) c rows s s' : (forall l p q, pos l p -> pos l q -> p = q) -> inflow pos c rows s -> inflow pos c rows s' -> s = s'.
Proof.
  intros U H. revert s'. induction H as [|b v pc pb rows s V P1 P2 H IH|a v pa pc rows s V P1 P2 H IH|a b v rows s V1 V2 H IH]; intros s' H'.
  - now inversion H'.
  - inversion H'; subst; try lra; [|exfalso; match goal with H : _ -> ?x <> ?x |- _ => exact (H ltac:(assumption) eq_refl) end]. repeat match goal with A : pos ?l ?p, B : pos ?l ?q |- _ => tryif constr_eq p q then fail else (pose proof (U _ _ _ A B); subst) end. match goal with H : inflow pos _ rows ?t |- _ = plus3 _ ?t => rewrite (IH t H); reflexivity end.
  - inversion H'; subst; try lra; [|exfalso; match goal with H : _ -> ?x <> ?x |- _ => exact (H ltac:(assumption) eq_refl) end]. repeat match goal with A : pos ?l ?p, B : pos ?l ?q |- _ => tryif constr_eq p q then fail else (pose proof (U _ _ _ A B); subst) end. match goal with H : inflow pos _ rows ?t |- _ = plus3 _ ?t => rewrite (IH t H); reflexivity end.
  - inversion H'; subst; try (exfalso; match goal with H : _ -> ?x <> ?x |- _ => exact (H ltac:(assumption) eq_refl) end). auto.
Qed.
Lemma inflow_same pos c rows rows' s : Forall2 same_flow rows rows' -> inflow pos c rows s -> inflow pos c rows' s.
Proof.
  intros F. revert s. induction F as [|r r' rows rows' R F IH]; intros s H; [exact H|]. destruct R as [a b v|a b v].
  - inversion H; subst; [eapply inflow_first|eapply inflow_second|apply inflow_other]; eauto.
  - inversion H; subst.
    + replace (towards pb pc v) with (towards pb pc (- - v)) by now rewrite Ropp_involutive. apply inflow_second; auto. lra.
    + apply inflow_first; auto. lra.
    + apply inflow_other; auto; intros Q; match goal with H : _ -> ?x <> ?y |- ?x <> ?y => apply H; lra end.
Qed.
Theorem import_orientation : forall ll o1 o2 pairs1 pairs2 labels m,
  o_type o1 = Connection -> o_labels o1 = Some (map pair_labels pairs1) -> o_type o2 = Connection -> o_labels o2 = Some (map pair_labels pairs2) ->
  dim m = 3 -> cells m <> [] -> sound 3 (points m) (cells m) ->
  labeler (Z.of_nat (n_cells (cells m))) ll = Ok labels -> List.length labels = n_cells (cells m) -> NoDup labels ->
  Forall (connected (cell_place (points m) (cells m) labels) labels) pairs1 ->
  Forall (connected (cell_place (points m) (cells m) labels) labels) pairs2 ->
  NoDup (map fst (o_data o1)) -> (forall k c, In (k, c) (o_data o1) -> List.length c = List.length pairs1 /\ Forall finite c) ->
  NoDup (map fst (o_data o2)) -> (forall k c, In (k, c) (o_data o2) -> List.length c = List.length pairs2 /\ Forall finite c) ->
  forall k c1 c2, In (k, c1) (o_data o1) -> In (k, c2) (o_data o2) ->
  Forall2 same_flow (combine pairs1 (map amount c1)) (combine pairs2 (map amount c2)) ->
  exists m1 m2 c, import_one ll o1 m = Ok (m1, o1) /\ import_one ll o2 m = Ok (m2, o2) /\
    find_column k (cell_data m1) = Some c /\ find_column k (cell_data m2) = Some c.
Proof.
  intros ll o1 o2 pairs1 pairs2 labels m T1 L1 T2 L2 D NE SO E EL N CO1 CO2 ND1 C1 ND2 C2 k c1 c2 I1 I2 SF.
  destruct (import_flows ll o1 pairs1 labels m T1 L1 D NE SO E EL N CO1 ND1 C1) as (m1 & E1 & _ & _ & R1).
  destruct (import_flows ll o2 pairs2 labels m T2 L2 D NE SO E EL N CO2 ND2 C2) as (m2 & E2 & _ & _ & R2).
  destruct (R1 k c1 I1) as (c1' & F1 & G1 & S1). destruct (R2 k c2 I2) as (c2' & F2 & G2 & S2).
  exists m1, m2, c1'. split; [exact E1|]. split; [exact E2|]. split; [exact F1|]. rewrite F2. f_equal. symmetry. apply nth_error_ext. intros j.
  destruct (nth_error labels j) as [l|] eqn:Q.
  - destruct (S1 j l Q) as (s & H1 & H2). destruct (S2 j l Q) as (s' & H1' & H2'). rewrite H1, H1'. do 2 f_equal.
    eapply inflow_unique; [apply (place_unique (points m) (cells m) labels N)|eapply inflow_same; [exact SF|exact H2]|exact H2'].
  - apply nth_error_None in Q. rewrite (proj2 (nth_error_None c1' j)) by lia. rewrite (proj2 (nth_error_None c2' j)) by lia. reflexivity.
Qed.

(** Which output of a list is imported. *)
Theorem import_step : forall ll outs t m, (- Z.of_nat (List.length outs) <= t < Z.of_nat (List.length outs))%Z ->
  exists i o, nth_error outs i = Some o /\ (Z.of_nat i = t \/ Z.of_nat i = t + Z.of_nat (List.length outs))%Z /\
    import_output ll (Several outs) t m =
      match import_one ll o m with Ok (m', o') => Ok (m', Several (set_nth i o' outs)) | Err e => Err e end.
Proof.
  intros ll outs t m H. unfold import_output, position. replace ((- Z.of_nat (List.length outs) <=? t)%Z && (t <? Z.of_nat (List.length outs))%Z) with true.
  2: { symmetry. apply andb_true_intro. split; [apply Z.leb_le|apply Z.ltb_lt]; lia. }
  cbn [guard bind]. set (i := Z.to_nat _). assert (B : i < List.length outs) by (unfold i; destruct (Z.ltb_spec t 0); lia).
  destruct (nth_error outs i) as [o|] eqn:EO; [|apply nth_error_None in EO; lia]. exists i, o. split; [exact EO|]. split; [unfold i; destruct (Z.ltb_spec t 0); lia|].
  destruct (import_one ll o m) as [[m' o']|]; reflexivity.
Qed.
Theorem import_no_step : forall ll outs t m, (t < - Z.of_nat (List.length outs) \/ Z.of_nat (List.length outs) <= t)%Z ->
  import_output ll (Several outs) t m = Err ValueError.
Proof.
  intros ll outs t m H. unfold import_output, position. replace ((- Z.of_nat (List.length outs) <=? t)%Z && (t <? Z.of_nat (List.length outs))%Z) with false; [reflexivity|].
  symmetry. apply andb_false_iff. destruct H; [left; apply Z.leb_gt|right; apply Z.ltb_ge]; lia.
Qed.
(** The output given is changed. *)
Theorem import_changes : forall ll o own labels m, o_type o = Element -> o_labels o = Some (map single own) -> NoDup own ->
  labeler (Z.of_nat (n_cells (cells m))) ll = Ok labels -> List.length labels = n_cells (cells m) -> Permutation own labels -> own <> labels ->
  (forall k c, In (k, c) (o_data o) -> List.length c = List.length own) ->
  exists m' o', import_output ll (One o) (-1) m = Ok (m', One o') /\ o' <> o /\ o_labels o' = Some (map single labels).
Proof.
  intros ll o own labels m T L N E EL P NE C. destruct (reorder_keeps o own labels L N P C) as (o' & R & T' & F' & Ti & L' & Na & D).
  pose proof (Permutation_length P) as PL. unfold import_output, import_one. rewrite T, L. cbn [bind]. rewrite map_length, PL, EL, Nat.eqb_refl. cbn [guard bind]. rewrite E. cbn [bind]. rewrite R. cbn [bind fst snd].
  eexists _, _. split; [reflexivity|]. split; [|exact L']. intros ->. rewrite L in L'. apply NE. injection L' as L'. clear - L'. revert labels L'. induction own as [|x own IH]; intros [|y labels] H; try discriminate; [reflexivity|].
  cbn [map] in H. injection H as H1 H2. f_equal; [exact H1|auto].
Qed.
(** A Tecplot output has no labels. *)
Theorem import_unlabelled : forall ll o m, o_type o = Element -> o_labels o = None -> import_one ll o m = Err TypeError.
Proof. intros ll o m T L. unfold import_one. now rewrite T, L. Qed.

(** To check a connection by computation. *)
Lemma connected_check {V} (m : mesh Qc V) cs labels a b i j : dim m = 3 -> centers m = Ok cs -> List.length labels = n_cells (cells m) -> NoDup labels ->
  nth_error labels i = Some a -> nth_error labels j = Some b -> nth_error cs i <> nth_error cs j ->
  connected (cell_place (points m) (cells m) labels) labels (a, b).
Proof.
  intros D E L N I J NE. split; [eapply nth_error_In; eauto|]. split; [eapply nth_error_In; eauto|]. intros pa pb PA PB. cbn [fst snd] in *.
  destruct (centers_place m cs labels D E L i a I) as (x & y & z & C & P). destruct (centers_place m cs labels D E L j b J) as (x' & y' & z' & C' & P').
  rewrite (place_unique _ _ _ N _ _ _ PA P), (place_unique _ _ _ N _ _ _ PB P'). intros Q. apply NE. rewrite C, C'. injection Q as Q1 Q2 Q3.
  apply eqR_Qeq, Qc_is_canon in Q1, Q2, Q3. now subst.
Qed.
