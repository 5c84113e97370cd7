(** Tecplot mesh files read back. *)
From Coq Require Import String Ascii Arith ZArith Bool Lia List.
From Verif Require Import Base.Str Base.Digits Base.Flt Base.FltText Model.Py Model.Numpy Model.Mesh Model.F3grid Model.Avsucd Model.TecMesh
  Spec.MeshCells Spec.F3grid Spec.Avsucd Spec.TecMesh Proofs.NumpyProof Proofs.MaterialProof Proofs.F3Text Proofs.AvsucdProof Proofs.TecCells.
From Verif Require Proofs.TecplotProof Proofs.TecZone Proofs.PruneProof Proofs.TimeSeriesProof Proofs.CellText Proofs.F3Build Proofs.F3Write Proofs.BlocksProof.
Import ListNotations.
Local Open Scope nat_scope.

(** ** Numbers *)
Definition reads (s : str) (x : flt) : Prop := isword s /\ parse_float s = Some x.
Lemma reads_Z z : reads (print_Z z) (flt_of_Z z).
Proof.
  split; [apply isword_print|]. destruct (Z.ltb_spec z 0) as [N|P].
  2:{ pose proof (parse_float_nat (Z.to_nat z)) as E. unfold nat_text in E. now rewrite Z2Nat.id in E by lia. }
  assert (D : exists c r, digits (- z) = c :: r /\ is_digit c = true).
  { pose proof (digits_all (- z)) as A. pose proof (nonempty_digits (- z)) as B. destruct (digits (- z)) as [|c r]; [discriminate B|].
    cbn in A. apply andb_true_iff in A as [A _]. eauto. }
  destruct D as (c & r & E & D).
  assert (U : parse_udec (digits (- z)) = Some (- z, 0)%Z).
  { unfold parse_udec. pose proof (span_digits_app (digits (- z)) []) as SP. rewrite app_nil_r in SP. rewrite SP; [|apply digits_all|exact I].
    rewrite app_nil_r, nonempty_digits. cbn [parse_exp List.length]. rewrite of_digits_digits by lia. f_equal. }
  assert (PR : print_Z z = sign_str true ++ digits (- z)) by (unfold print_Z; destruct (Z.ltb_spec z 0); [reflexivity|lia]). rewrite PR.
  rewrite (parse_float_signed true (digits (- z)) (- z) 0 c r); auto.
  - f_equal. unfold flt_of_dec, flt_of_Z, frac. destruct (Z.ltb_spec z 0); [|lia]. rewrite Z.abs_neq by lia. cbn. f_equal. lia.
  - apply digits_clean, digits_all.
Qed.
Definition reads_var (v : str * list str) (c : str * list flt) : Prop := fst v = fst c /\ Forall2 reads (snd v) (snd c).
Lemma reads_floats ws xs : Forall2 reads ws xs -> mapM to_flt ws = Ok xs.
Proof. induction 1 as [|w x ws xs [_ E] F IH]; [reflexivity|]. cbn [mapM]. unfold to_flt at 1. rewrite E. cbn [bind]. now rewrite IH. Qed.
Lemma reads_words ws xs : Forall2 reads ws xs -> Forall isword ws.
Proof. induction 1 as [|w x ws xs [E _] F IH]; constructor; auto. Qed.
Lemma axis_ok k : is_axis k = true <-> coordinate k.
Proof.
  unfold is_axis, coordinate. rewrite existsb_exists. split.
  - intros (x & I & E). apply streqb_eq in E. subst x. destruct I as [<-|[<-|[<-|[<-|[<-|[<-|[]]]]]]]; eexists; split; try reflexivity; cbn; tauto.
  - intros (s & I & ->). exists $s. split; [|apply streqb_refl]. destruct I as [<-|[<-|[<-|[<-|[<-|[<-|[]]]]]]]; cbn; tauto.
Qed.
Lemma not_axis k : ~ coordinate k -> is_axis k = false.
Proof. intros N. apply not_true_iff_false. intros X. now apply axis_ok in X. Qed.

Section Repr.
  Variable repr : flt -> str.
  Hypothesis R : faithful repr.
  Lemma reads_repr x : is_f64 x = true -> reads (repr x) x.
  Proof.
    intros H. destruct (R x H) as (A & B & C). split; [|exact A]. split; [exact B|]. unfold no_space_str. apply forallb_forall. intros c I. now rewrite (C c I).
  Qed.
  Lemma reads_reprs l : Forall (fun x => is_f64 x = true) l -> Forall2 reads (map repr l) l.
  Proof. induction 1; constructor; auto using reads_repr. Qed.
  Lemma vars_read e cs : scalars e cs -> regular (snd e) -> Forall2 reads_var (variables_of repr e) cs /\ Forall (fun c => List.length (snd c) = entries (snd e)) cs.
  Proof.
    intros S G. unfold variables_of. destruct S as [k d N|k l N|k l N|k w l cs N L H]; cbn [fst snd entries regular] in *.
    - apply axis_ok in N. rewrite N. split; constructor.
    - rewrite (not_axis k N). split; [|constructor; [apply map_length|constructor]]. constructor; [|constructor]. split; [reflexivity|]. cbn [snd]. clear. induction l; constructor; auto using reads_Z.
    - rewrite (not_axis k N). split; [|constructor; [reflexivity|constructor]]. constructor; [|constructor]. split; [reflexivity|]. cbn [snd]. now apply reads_reprs.
    - rewrite (not_axis k N). destruct G as [_ G]. split.
      + assert (GG : forall cs a, (forall i c, nth_error cs i = Some c -> fst c = k ++ $"_" ++ print_Z (Z.of_nat (a + i)) /\ Forall2 (fun r x => nth_error r (a + i) = Some x) l (snd c)) ->
          a + List.length cs <= w -> Forall2 reads_var (map (fun i => (k ++ "_"%char :: nat_text i, map (fun r => repr (nth i r NaN)) l)) (seq a (List.length cs))) cs).
        { clear H L cs. induction cs as [|c cs IH]; intros a H L; [constructor|]. cbn [List.length seq map] in *. constructor.
          - destruct (H 0 c eq_refl) as [A B]. rewrite Nat.add_0_r in A, B. split; [symmetry; exact A|]. enough (HX : forall xs, Forall2 (fun r x => nth_error r a = Some x) l xs -> Forall2 reads (map (fun r => repr (nth a r NaN)) l) xs) by exact (HX _ B).
            clear B. intros xs B. clear - B G L R. induction B as [|r x l xs E B IH]; [constructor|]. apply Forall_cons_iff in G as [[GL G1] G]. cbn [map]. constructor; [|now apply IH].
            rewrite (nth_error_nth _ _ NaN E). apply reads_repr. rewrite Forall_forall in G1. apply G1. eapply nth_error_In; eauto.
          - apply IH; [|lia]. intros i c' E. specialize (H (S i) c' E). now rewrite Nat.add_succ_r in H. }
        rewrite <- L. apply (GG cs 0); [exact H|lia].
      + apply Forall_forall. intros c I. apply In_nth_error in I as (i & I). destruct (H i c I) as [_ F]. symmetry. now apply Forall2_length in F.
  Qed.
  Lemma vars_all data cols n : Forall2 scalars data cols -> Forall (fun e => regular (snd e) /\ entries (snd e) = n) data ->
    Forall2 reads_var (concat (map (variables_of repr) data)) (concat cols) /\ Forall (fun c => List.length (snd c) = n) (concat cols).
  Proof.
    induction 1 as [|e cs data cols S F IH]; intros G; [split; constructor|]. apply Forall_cons_iff in G as [[G1 G2] G]. destruct (IH G) as [A B].
    destruct (vars_read e cs S G1) as [A1 B1]. cbn [map concat]. split; [now apply Forall2_app|]. apply Forall_app. split; [|exact B].
    eapply Forall_impl; [|exact B1]. intros c E. cbn beta in E. congruence.
  Qed.

  (** ** Points *)
  Definition axis_cols (d : nat) (points : list (list flt)) : list (str * list flt) :=
    map (fun i => (nth i axis_names [], map (fun p => nth i p NaN) points)) (seq 0 d).
  Definition f64s (points : list (list flt)) : Prop := Forall (Forall (fun x => is_f64 x = true)) points.
  Lemma item_ok {A} (l : list A) i x d : item l i = Ok x -> x = nth i l d /\ In x l.
  Proof.
    unfold item. destruct (nth_error l i) as [y|] eqn:E; [|discriminate]. intros X. assert (y = x) as -> by congruence.
    split; [symmetry; now apply nth_error_nth|eapply nth_error_In; eauto].
  Qed.
  Lemma axes_read points ax d : axes repr points = Ok ax -> Forall (fun p => List.length p = d) points -> d = 2 \/ d = 3 -> f64s points ->
    Forall2 reads_var ax (axis_cols d points).
  Proof.
    unfold axes. intros E L D F. destruct points as [|p ps]; [discriminate E|].
    assert (LP : (List.length p =? 3) = (d =? 3)) by (apply Forall_inv in L; now rewrite L). rewrite LP in E.
    assert (SQ : (if d =? 3 then [0; 1; 2] else [0; 1]) = seq 0 d) by (destruct D as [-> | ->]; reflexivity). rewrite SQ in E. clear SQ LP.
    set (points := p :: ps) in *. unfold axis_cols. apply mapM_F2 in E. clearbody points. clear D.
    induction E as [|i a is ax E EE IH]; [constructor|]. cbn [map]. constructor; [|exact IH].
    destruct (mapM (fun p0 => item p0 i) points) as [xs|] eqn:X; cbn [bind] in E; [|discriminate E].
    destruct (item axis_names i) as [k|] eqn:K; cbn [bind] in E; [|discriminate E]. assert (a = (k, map repr xs)) as -> by congruence.
    split; [cbn [fst]; now apply (item_ok _ _ _ [])|]. cbn [snd]. apply mapM_F2 in X. clear - X F R.
    induction X as [|p x points xs E X IH]; [constructor|]. apply Forall_cons_iff in F as [F1 F]. cbn [map]. constructor; [|now apply IH].
    destruct (item_ok _ _ _ NaN E) as [E' I]. rewrite <- E'. apply reads_repr. rewrite Forall_forall in F1. now apply F1.
  Qed.
End Repr.
Lemma seq_F2 {A} (P : nat -> A -> Prop) l : (forall i y, nth_error l i = Some y -> P i y) -> Forall2 P (seq 0 (List.length l)) l.
Proof.
  enough (G : forall a, (forall i y, nth_error l i = Some y -> P (a + i) y) -> Forall2 P (seq a (List.length l)) l) by (intros H; now apply G).
  induction l as [|x l IH]; intros a H; [constructor|]. cbn [List.length seq]. constructor; [rewrite <- (Nat.add_0_r a); now apply H|].
  apply IH. intros i y E. specialize (H (S i) y E). now rewrite Nat.add_succ_r in H.
Qed.
Lemma axis_lengths d points : Forall (fun c => List.length (snd c) = List.length points) (axis_cols d points).
Proof. apply Forall_forall. intros c I. apply in_map_iff in I as (i & <- & _). apply map_length. Qed.
Lemma points_back d points : Forall (fun p => List.length p = d) points -> d = 2 \/ d = 3 -> columns (map snd (axis_cols d points)) = Ok points.
Proof.
  intros L D. unfold columns. assert (H : hd [] (map snd (axis_cols d points)) = map (fun p => nth 0 p NaN) points) by (destruct D as [-> | ->]; reflexivity).
  rewrite H, map_length. assert (G : forallb (fun c => List.length c =? List.length points) (map snd (axis_cols d points)) = true).
  { apply forallb_forall. intros c I. apply in_map_iff in I as (v & <- & I). pose proof (axis_lengths d points) as A. rewrite Forall_forall in A. apply Nat.eqb_eq. now apply A. }
  rewrite G. cbn [guard bind]. apply mapM_F2. apply seq_F2. intros i p E.
  apply mapM_F2. unfold axis_cols. rewrite map_map. cbn [snd].
  assert (P : p = map (fun j => nth j p NaN) (seq 0 d)).
  { rewrite Forall_forall in L. assert (LP : List.length p = d) by (apply L; eapply nth_error_In; eauto). clear - LP D.
    destruct D as [-> | ->]; destruct p as [|x [|y [|z [|? ?]]]]; cbn in LP; try discriminate LP; reflexivity. }
  rewrite P at 1. clear P. generalize (seq 0 d). intros l. induction l as [|j l IH]; [constructor|]. cbn [map]. constructor; [|exact IH].
  unfold item. rewrite nth_error_map, E. reflexivity.
Qed.

(** ** Data rows *)
Lemma rows_read rows xss rest : Forall2 (Forall2 reads) rows xss -> Forall (fun r => r <> []) rows ->
  data_rows true (List.length (concat xss)) (map word_line rows ++ rest) = Ok (xss, rest).
Proof.
  induction 1 as [|ws xs rows xss F FF IH]; intros N.
  - cbn [concat List.length map app]. destruct rest; reflexivity.
  - apply Forall_cons_iff in N as [N1 N]. cbn [concat map app]. rewrite app_length. pose proof (Forall2_length _ _ _ F) as L.
    assert (P : List.length xs + List.length (concat xss) <> 0) by (destruct ws; [congruence|]; cbn [List.length] in L; lia).
    destruct (List.length xs + List.length (concat xss)) as [|q] eqn:Q; [congruence|]. cbn [data_rows Nat.eqb]. rewrite words_line; [|eapply reads_words; eauto|exact N1].
    destruct ws as [|w ws]; [congruence|]. rewrite (reads_floats _ _ F). cbn [bind]. rewrite <- Q, Nat.add_comm, Nat.add_sub. rewrite IH by exact N. reflexivity.
Qed.
Lemma rows_split rows : forall xs, Forall2 reads (concat rows) xs -> exists xss, Forall2 (Forall2 reads) rows xss /\ concat xss = xs.
Proof.
  induction rows as [|r rows IH]; intros xs F; cbn [concat] in F; [inversion F; exists []; split; [constructor|reflexivity]|].
  apply Forall2_app_inv_l in F as (a & b & F1 & F2 & ->). destruct (IH b F2) as (xss & G & <-). exists (a :: xss). split; [now constructor|reflexivity].
Qed.
Lemma all_rows vars cols : Forall2 reads_var vars cols ->
  let rows := concat (map (fun v => table_rows 20 (snd v)) vars) in
  Forall (fun r => r <> []) rows /\ exists xss, Forall2 (Forall2 reads) rows xss /\ concat xss = concat (map snd cols).
Proof.
  induction 1 as [|v c vars cols [_ V] F IH]; cbn zeta; cbn [map concat]; [split; [constructor|exists []; split; [constructor|reflexivity]]|].
  cbn zeta in IH. destruct IH as (N & xss & G & E). destruct (table_concat (snd v)) as [T1 T2]. rewrite <- T1 in V.
  destruct (rows_split _ _ V) as (yss & G' & E'). split; [now apply Forall_app|]. exists (yss ++ xss). split; [now apply Forall2_app|]. now rewrite concat_app, E', E.
Qed.
Lemma pieces_back {A} (cols : list (list A)) : cols <> [] -> np_split (concat cols) (cumsum 0 (removelast (map (@List.length A) cols))) = cols.
Proof.
  unfold np_split. intros N. assert (G : forall b, split_from b (cumsum b (removelast (map (@List.length A) cols))) (concat cols) = cols).
  { induction cols as [|c cols IH]; [congruence|]. intros b. destruct cols as [|c' cols]; [cbn; now rewrite app_nil_r|].
    change (removelast (map (@List.length A) (c :: c' :: cols))) with (List.length c :: removelast (map (@List.length A) (c' :: cols))). cbn [cumsum split_from].
    change (concat (c :: c' :: cols)) with (c ++ concat (c' :: cols)). replace (b + List.length c - b) with (List.length c) by lia.
    rewrite firstn_app, firstn_all, Nat.sub_diag, skipn_app, skipn_all, Nat.sub_diag. cbn [firstn skipn]. rewrite app_nil_r. cbn [app]. f_equal. apply IH. discriminate. }
  apply G.
Qed.
Lemma cells_read conn : Forall (fun c => c <> []) conn ->
  cell_rows (List.length conn) (map (fun c => word_line (map (fun v => nat_text (S v)) c)) conn) = Ok (map (map (fun v => Z.of_nat (S v))) conn).
Proof.
  induction 1 as [|c conn C F IH]; [reflexivity|]. cbn [List.length map cell_rows Nat.eqb]. rewrite words_line.
  - assert (E : mapM to_int (map (fun v => nat_text (S v)) c) = Ok (map (fun v => Z.of_nat (S v)) c)).
    { pose proof (to_ints (map S c)) as T. now rewrite !map_map in T. }
    destruct (map (fun v => nat_text (S v)) c) as [|w ws] eqn:X; [apply map_eq_nil in X; contradiction|]. rewrite E. cbn [bind]. rewrite Nat.sub_succ, Nat.sub_0_r, IH. reflexivity.
  - apply Forall_map, Forall_forall. intros v _. apply isword_nat.
  - intros X. now apply map_eq_nil in X.
Qed.
Lemma numbers_back c : mapM node_number (map (fun v => Z.of_nat (S v)) c) = Ok c.
Proof.
  induction c as [|v c IH]; [reflexivity|]. cbn [map mapM]. unfold node_number at 1. rewrite (proj2 (Z.leb_le _ _)) by lia. cbn [guard bind].
  rewrite IH. cbn [bind]. repeat f_equal. lia.
Qed.

(** ** The data of the cells *)
Lemma sizes_split {A} (cells : list cellblock) (l : list A) ls : cells <> [] -> split cells l = Ok ls ->
  concat ls = l /\ Forall2 (fun b p => List.length p = List.length (snd b)) cells ls.
Proof.
  unfold split. destruct (Nat.eqb_spec (List.length l) (n_cells cells)) as [L|]; cbn [guard bind]; [|discriminate]. intros N X.
  assert (ls = np_split l (removelast (cumsum 0 (map (fun c => List.length (snd c)) cells)))) as -> by congruence. clear X.
  split; [apply (TimeSeriesProof.split_concat _ 0)|]. unfold np_split.
  enough (G : forall b l, List.length l = n_cells cells -> Forall2 (fun b p => List.length p = List.length (snd b)) cells (split_from b (removelast (cumsum b (map (fun c => List.length (snd c)) cells))) l)) by now apply G.
  clear l L. unfold n_cells. induction cells as [|c cells IH]; [congruence|]. intros b l L. destruct cells as [|c' cells].
  - cbn in L |- *. constructor; [lia|constructor].
  - cbn [map]. rewrite BlocksProof.removelast_cumsum. cbn [split_from]. replace (b + List.length (snd c) - b) with (List.length (snd c)) by lia.
    cbn [map list_sum fold_right] in L. constructor; [rewrite firstn_length; unfold list_sum in L; cbn [map fold_right] in L; lia|].
    apply IH; [discriminate|]. rewrite skipn_length. unfold list_sum in *. cbn [map fold_right] in *. lia.
Qed.
Lemma take_marked {A B} (W : A -> bool) (cs : list A) : forall (ps : list B) out, List.length ps = List.length cs ->
  take ps (map fst (filter (fun ib => W (snd ib)) (numbered cs))) = Ok out -> out = map snd (filter (fun bp => W (fst bp)) (combine cs ps)).
Proof.
  unfold numbered. enough (G : forall (cs : list A) (pre ps : list B) out, List.length ps = List.length cs ->
    take (pre ++ ps) (map fst (filter (fun ib => W (snd ib)) (combine (seq (List.length pre) (List.length cs)) cs))) = Ok out -> out = map snd (filter (fun bp => W (fst bp)) (combine cs ps))).
  { intros ps out L T. now apply (G cs [] ps out). }
  clear cs. induction cs as [|c cs IH]; intros pre ps out L T; destruct ps as [|p ps]; try discriminate L; [cbn in T; now assert (out = []) as -> by congruence|].
  cbn [List.length seq combine filter snd fst] in *. assert (Q : pre ++ p :: ps = (pre ++ [p]) ++ ps) by now rewrite <- app_assoc.
  assert (QL : S (List.length pre) = List.length (pre ++ [p])) by (rewrite app_length; cbn; lia).
  destruct (W c); cbn [map fst snd] in *.
  - unfold take in T. cbn [mapM] in T. unfold item at 1 in T. rewrite nth_error_app2, Nat.sub_diag in T by lia. cbn [nth_error bind] in T.
    match type of T with bind ?x _ = _ => destruct x as [o|] eqn:E end; cbn [bind] in T; [|discriminate T]. assert (out = p :: o) as -> by congruence. f_equal.
    apply (IH (pre ++ [p])); [lia|]. rewrite <- Q, <- QL. exact E.
  - apply (IH (pre ++ [p])); [lia|]. rewrite <- Q, <- QL. exact T.
Qed.
Lemma marked_concat {A} (T : Type) (f : T -> bool) (g : T -> nat) (cs : list T) (ps : list (list A)) :
  Forall2 (fun b p => List.length p = g b) cs ps ->
  map snd (filter fst (combine (flat_map (fun b => repeat (f b) (g b)) cs) (concat ps))) = concat (map snd (filter (fun bp => f (fst bp)) (combine cs ps))).
Proof.
  induction 1 as [|b p cs ps L F IH]; [reflexivity|]. cbn [flat_map concat combine filter fst].
  assert (X : forall (a b : list bool) (c d : list A), List.length a = List.length c -> combine (a ++ b) (c ++ d) = combine a c ++ combine b d).
  { clear. induction a as [|x a IH]; intros b [|y c] d L; try discriminate L; [reflexivity|]. cbn [app combine]. f_equal. apply IH. now injection L. }
  rewrite X by (rewrite repeat_length; lia). rewrite filter_app, map_app, IH.
  assert (Y : map snd (filter fst (combine (repeat (f b) (g b)) p)) = if f b then p else []).
  { rewrite <- L. clear. destruct (f b); induction p as [|x p IH]; cbn [List.length repeat combine filter fst map snd]; auto. now rewrite IH. }
  rewrite Y. destruct (f b); reflexivity.
Qed.
Lemma marked_length {A} (cells : list cellblock) (W : cellblock -> bool) (ps : list (list A)) : Forall2 (fun b p => List.length p = List.length (snd b)) cells ps ->
  List.length (concat (map snd (filter (fun bp => W (fst bp)) (combine cells ps)))) = List.length (flat_map (fun b => map (pair (fst b)) (snd b)) (filter W cells)).
Proof.
  induction 1 as [|b p cs ps L F IH]; [reflexivity|]. cbn [combine filter fst]. destruct (W b); [|exact IH].
  cbn [map concat snd flat_map]. rewrite !app_length, IH, map_length. congruence.
Qed.
Lemma chosen_In {A} cells (l : list A) x : In x (chosen_of cells l) -> In x l.
Proof. unfold chosen_of. intros I. apply in_map_iff in I as ([b y] & <- & I). apply filter_In in I as [I _]. now apply in_combine_r in I. Qed.
Lemma restricted_ok cells e ds ds' d : cells <> [] -> split_array cells (snd e) = Ok ds ->
  take ds (map fst (filter (fun ib => written cells (snd ib)) (numbered cells))) = Ok ds' -> concatenate ds' = Ok d ->
  d = snd (restricted cells e) /\ entries d = List.length (written_cells cells) /\ (regular (snd e) -> regular d).
Proof.
  intros N S T C.
  assert (X : forall A (K : list A -> darray) l, (forall l k, append (K l) (K k) = Ok (K (l ++ k))) -> (forall l, entries (K l) = List.length l) -> (let* ls := split cells l in Ok (map K ls)) = Ok ds ->
    d = K (chosen_of cells l) /\ entries d = List.length (written_cells cells)).
  { clear S. intros A K l HA HE S. destruct (split cells l) as [ls|] eqn:E; cbn [bind] in S; [|discriminate S]. assert (ds = map K ls) as -> by congruence. clear S.
    destruct (sizes_split cells l ls N E) as [E1 E2]. pose proof (Forall2_length _ _ _ E2) as L.
    apply take_marked in T; [|rewrite map_length; congruence].
    assert (T' : ds' = map K (map snd (filter (fun bp => written cells (fst bp)) (combine cells ls)))).
    { rewrite T. clear. revert ls. generalize (written cells). intros W. induction cells as [|c cells IH]; intros [|x ls]; cbn [map combine filter]; auto. cbn [fst].
      destruct (W c); cbn [map snd]; now rewrite IH. }
    pose proof (marked_concat cellblock (written cells) (fun b => List.length (snd b)) cells ls E2) as MC0. rewrite E1 in MC0.
    assert (MC : chosen_of cells l = concat (map snd (filter (fun bp => written cells (fst bp)) (combine cells ls)))) by exact MC0.
    pose proof (marked_length cells (written cells) ls E2) as ML0.
    assert (ML : List.length (chosen_of cells l) = List.length (written_cells cells)) by (rewrite MC; exact ML0).
    assert (D : d = K (chosen_of cells l)).
    { rewrite MC. rewrite T' in C. clear - C HA. revert C. match goal with |- context [concat ?x] => generalize x end. intros pieces C. destruct pieces as [|q qs]; [discriminate C|].
      cbn [map concatenate] in C. rewrite (append_any K HA) in C. cbn [concat]. congruence. }
    split; [exact D|]. rewrite D, HE. exact ML. }
  unfold restricted. destruct (snd e) as [l|l|w l]; cbn [split_array snd] in *; apply X in S; auto using append_rows; destruct S as [-> S]; (split; [reflexivity|]); (split; [exact S|]); cbn [regular].
  - rewrite !Forall_forall. intros H x I. apply chosen_In in I. auto.
  - rewrite !Forall_forall. intros H x I. apply chosen_In in I. auto.
  - rewrite !Forall_forall. intros [H0 H]. split; [exact H0|]. intros x I. apply chosen_In in I. auto.
Qed.

(** ** The dictionaries *)
Lemma assoc_there {B} (l : list (str * B)) e : NoDup (map fst l) -> In e l -> assoc (fst e) l = Ok (snd e).
Proof.
  intros N I. apply in_split in I as (a & b & ->). destruct e as [k v]. rewrite map_app in N. cbn [map fst] in N. apply NoDup_remove_2 in N.
  apply assoc_mid. intros I. apply N. apply in_or_app. now left.
Qed.
Definition sort_step (data : list (str * list flt)) (pc : list (str * list flt) * list (str * list flt)) (iv : bool * str) : res (list (str * list flt) * list (str * list flt)) :=
  let* v := assoc (snd iv) data in if fst iv : bool then Ok (fst pc, sset (snd iv) v (snd pc)) else Ok (sset (snd iv) v (fst pc), snd pc).
Lemma sorted_out data a b : NoDup (map fst data) -> incl (a ++ b) data -> NoDup (map fst (a ++ b)) ->
  foldM (sort_step data) ([], []) (combine (repeat false (List.length a) ++ repeat true (List.length b)) (map fst (a ++ b))) = Ok (a, b).
Proof.
  intros N I D.
  assert (GB : forall b P C, incl b data -> NoDup (map fst (C ++ b)) -> foldM (sort_step data) (P, C) (combine (repeat true (List.length b)) (map fst b)) = Ok (P, C ++ b)).
  { clear I D a b. induction b as [|e b IH]; intros P C I D; [cbn; now rewrite app_nil_r|]. cbn [List.length repeat map combine foldM]. unfold sort_step at 1. cbn [fst snd].
    rewrite (assoc_there data e) by (auto; apply I; now left). cbn [bind].
    assert (NC : ~ In (fst e) (map fst C)). { rewrite map_app in D. cbn [map] in D. apply NoDup_remove_2 in D. intros J. apply D. apply in_or_app. now left. }
    rewrite F3Build.sset_new by exact NC. rewrite IH.
    - rewrite <- app_assoc. cbn [app]. now destruct e.
    - intros x J. apply I. now right.
    - rewrite <- app_assoc. cbn [app]. destruct e. exact D. }
  assert (GA : forall a P C rest names, incl a data -> NoDup (map fst (P ++ a)) ->
    foldM (sort_step data) (P, C) (combine (repeat false (List.length a) ++ rest) (map fst a ++ names)) = foldM (sort_step data) (P ++ a, C) (combine rest names)).
  { clear I D a b GB. induction a as [|e a IH]; intros P C rest names I D; [cbn; now rewrite app_nil_r|]. cbn [List.length repeat map app combine foldM]. unfold sort_step at 1. cbn [fst snd].
    rewrite (assoc_there data e) by (auto; apply I; now left). cbn [bind].
    assert (NC : ~ In (fst e) (map fst P)). { rewrite map_app in D. cbn [map] in D. apply NoDup_remove_2 in D. intros J. apply D. apply in_or_app. now left. }
    rewrite F3Build.sset_new by exact NC. rewrite IH.
    - rewrite <- app_assoc. cbn [app]. now destruct e.
    - intros x J. apply I. now right.
    - rewrite <- app_assoc. cbn [app]. destruct e. exact D. }
  rewrite map_app in *. rewrite GA.
  - cbn [app]. apply GB; [intros x J; apply I; apply in_or_app; now right|]. cbn [app]. clear - D. induction (map fst a); [exact D|]. inversion_clear D. auto.
  - intros x J. apply I. apply in_or_app. now left.
  - cbn [app]. clear - D. induction a as [|e a IH]; [constructor|]. cbn [map app] in *. inversion_clear D as [|? ? D1 D2]. constructor; [|now apply IH]. intros J. apply D1. apply in_or_app. now left.
Qed.
Lemma differ a b : a <> b -> streqb a b = false.
Proof. apply streqb_neq. Qed.
Lemma pop_front {B} k (v : B) r : ~ In k (map fst r) -> pop k ((k, v) :: r) = Ok (v, r).
Proof.
  intros N. unfold pop. cbn [assoc]. rewrite streqb_refl. cbn [bind filter fst]. rewrite streqb_refl. cbn [negb]. do 2 f_equal.
  induction r as [|e r IH]; [reflexivity|]. cbn [map In] in N. cbn [filter]. rewrite differ by (intros X; apply N; left; exact X). cbn [negb]. f_equal. apply IH. tauto.
Qed.
Lemma known_not {B} k (d : list (str * B)) : ~ In k (map fst d) -> known d k = false.
Proof. intros N. unfold known. now rewrite assoc_new. Qed.
Lemma known_first {B} k v (d : list (str * B)) : known ((k, v) :: d) k = true.
Proof. unfold known. cbn [assoc]. now rewrite streqb_refl. Qed.
Lemma known_next {B} k k' v (d : list (str * B)) : streqb k k' = false -> known ((k', v) :: d) k = known d k.
Proof. intros E. unfold known. cbn [assoc]. now rewrite E. Qed.
Lemma scalar_names e cs : scalars e cs -> Forall (fun c => ~ coordinate (fst c)) cs.
Proof.
  intros S. destruct S as [k d N|k l N|k l N|k w l cs N L H]; try (repeat constructor; exact N).
  apply Forall_forall. intros c I. apply In_nth_error in I as (i & I). destruct (H i c I) as [E _]. intros (s & J & X).
  assert (U : In "_"%char $s) by (rewrite <- (eq_trans (eq_sym E) X); apply in_or_app; right; now left).
  cbn in J. destruct J as [<-|[<-|[<-|[<-|[<-|[<-|[]]]]]]]; cbn in U; intuition discriminate.
Qed.
Lemma scalars_names data cols : Forall2 scalars data cols -> Forall (fun c => ~ coordinate (fst c)) (concat cols).
Proof. induction 1 as [|e cs data cols S F IH]; [constructor|]. cbn [concat]. apply Forall_app. split; [now apply (scalar_names e)|exact IH]. Qed.
Definition pop_step (cp : list (list flt) * list (str * list flt)) (k : str) : res (list (list flt) * list (str * list flt)) :=
  let* vr := pop k (snd cp) in Ok (fst cp ++ [fst vr], snd vr).
Lemma popped d points rest : d = 2 \/ d = 3 -> Forall (fun c => ~ coordinate (fst c)) rest ->
  let pd := axis_cols d points ++ rest in
  let x := if known pd $"X" then $"X" else $"x" in let y := if known pd $"Y" then $"Y" else $"y" in
  let zs := if known pd $"Z" then [$"Z"] else if known pd $"z" then [$"z"] else [] in
  foldM pop_step ([], pd) (x :: y :: zs) = Ok (map snd (axis_cols d points), rest).
Proof.
  intros D F. assert (NI : forall s, coordinate $s -> ~ In $s (map fst rest)).
  { intros s C I. apply in_map_iff in I as (c & E & I). rewrite Forall_forall in F. apply (F c I). now rewrite E. }
  assert (CX : forall s, In s ["X"; "Y"; "Z"; "x"; "y"; "z"]%string -> coordinate $s) by (intros s I; exists s; auto).
  assert (NX : ~ In $"X" (map fst rest)) by (apply NI, CX; cbn; tauto). assert (NY : ~ In $"Y" (map fst rest)) by (apply NI, CX; cbn; tauto).
  assert (NZ : ~ In $"Z" (map fst rest)) by (apply NI, CX; cbn; tauto). assert (Nz : ~ In $"z" (map fst rest)) by (apply NI, CX; cbn; tauto).
  destruct D as [-> | ->]; cbn zeta.
  - change (axis_cols 2 points) with [($"X", map (fun p => nth 0 p NaN) points); ($"Y", map (fun p => nth 1 p NaN) points)]. cbn [app].
    rewrite known_first, (known_next $"Y" $"X"), known_first, (known_next $"Z" $"X"), (known_next $"Z" $"Y"), (known_next $"z" $"X"), (known_next $"z" $"Y") by reflexivity.
    rewrite (known_not $"Z") by exact NZ. rewrite (known_not $"z") by exact Nz. cbn [foldM]. unfold pop_step at 1. cbn [snd fst].
    rewrite pop_front by (cbn [map fst In]; intros [E|I]; [discriminate E|contradiction]). cbn [bind fst snd app]. unfold pop_step. cbn [fst snd]. rewrite pop_front by exact NY. reflexivity.
  - change (axis_cols 3 points) with [($"X", map (fun p => nth 0 p NaN) points); ($"Y", map (fun p => nth 1 p NaN) points); ($"Z", map (fun p => nth 2 p NaN) points)]. cbn [app].
    rewrite known_first, (known_next $"Y" $"X"), known_first, (known_next $"Z" $"X"), (known_next $"Z" $"Y"), known_first by reflexivity. cbn [foldM]. unfold pop_step at 1. cbn [snd fst].
    rewrite pop_front by (cbn [map fst In]; intros [E|[E|I]]; [discriminate E|discriminate E|contradiction]). cbn [bind fst snd app]. unfold pop_step at 1. cbn [fst snd].
    rewrite pop_front by (cbn [map fst In]; intros [E|I]; [discriminate E|contradiction]). cbn [bind fst snd app]. unfold pop_step. cbn [fst snd]. rewrite pop_front by exact NZ. reflexivity.
Qed.
Lemma renamed_ok (l l' : list (str * darray)) : renamed l l' -> NoDup (map fst l) ->
  match find (fun e => is_material (fst e)) l with
  | Some (k, v) => sset $"material" v (filter (fun e => negb (streqb (fst e) k)) l)
  | None => l
  end = l'.
Proof.
  assert (NM : forall a : list (str * darray), (forall e, In e a -> ~ names_material (fst e)) -> Forall (fun e => is_material (fst e) = false) a).
  { intros a H. apply Forall_forall. intros e I. apply not_true_iff_false. intros X. apply is_material_ok in X. now apply (H e). }
  intros H N. destruct H as [l H|a k d b H K].
  - apply NM in H. assert (E : find (fun e => is_material (fst e)) l = None) by (clear N; induction H as [|e l E H IH]; [reflexivity|]; cbn [find]; now rewrite E). now rewrite E.
  - assert (HN := H). apply NM in H. apply Forall_app in H as [HA HB].
    assert (E : find (fun e => is_material (fst e)) (a ++ (k, d) :: b) = Some (k, d)).
    { clear N HN. induction HA as [|e a E H IH]; cbn [app find]; [cbn [fst]; apply is_material_ok in K; now rewrite K|]. now rewrite E. }
    rewrite E. assert (FF : filter (fun e => negb (streqb (fst e) k)) (a ++ (k, d) :: b) = a ++ b).
    { rewrite map_app in N. cbn [map fst] in N. apply NoDup_remove_2 in N. rewrite <- map_app in N.
      assert (Q : forall l : list (str * darray), (forall e, In e l -> In e (a ++ b)) -> filter (fun e => negb (streqb (fst e) k)) l = l).
      { intros l I. induction l as [|e l IH]; [reflexivity|]. cbn [filter]. rewrite differ.
        - cbn [negb]. f_equal. apply IH. intros x J. apply I. now right.
        - intros X. apply N. rewrite <- X. apply in_map. apply I. now left. }
      rewrite filter_app. cbn [filter fst]. rewrite streqb_refl. cbn [negb]. rewrite !Q; [reflexivity| |]; intros e I; apply in_or_app; auto. }
    rewrite FF. rewrite F3Build.sset_new; [now rewrite <- app_assoc|]. intros I. apply in_map_iff in I as (e & X & I). apply (HN e I). rewrite X. exists "material"%string. cbn. auto.
Qed.

(** ** The lines before the data *)
Definition title (version : str) : str := $"TITLE = " ++ quoted ($"Written by toughio v" ++ version) ++ [nl].
Definition tail_lines (p q : nat) (zone : str) : list str :=
  if q =? 0 then [TecZone.packing zone ++ [nl]] else [(TecZone.packing zone ++ $",") ++ [nl]; TecZone.centred (S p) (p + q) ++ [nl]].
Definition zone_line (n m p q : nat) (zone : str) : str :=
  if q =? 0 then TecZone.counts n m ++ sp :: TecZone.packing zone
  else TecZone.counts n m ++ sp :: (TecZone.packing zone ++ $",") ++ sp :: TecZone.centred (S p) (p + q).
Lemma counts_trimmed n m : trimmed (TecZone.counts n m) = true.
Proof.
  apply CellText.open_close; [eexists _, _; split; reflexivity|]. unfold TecZone.counts. do 4 apply CellText.closes_app. exists [], ","%char. split; reflexivity.
Qed.
Lemma title_found version hs n m rest : Forall readable hs -> In $"X" hs -> In $"Y" hs ->
  find_zone None (title version :: TecZone.names_line hs :: (TecZone.counts n m ++ [nl]) :: rest) = Ok (Some hs, TecZone.counts n m, rest).
Proof.
  intros F X Y. destruct (TecZone.names_read hs F X Y) as (_ & U & V). cbn [find_zone].
  destruct (head_strip "T"%char ($"ITLE = " ++ quoted ($"Written by toughio v" ++ version) ++ [nl]) eq_refl) as (t & E).
  assert (E' : strip (title version) = "T"%char :: t) by exact E. rewrite E'. change (startswith $"VARIABLES" (upper ("T"%char :: t))) with false. change (startswith $"ZONE" (upper ("T"%char :: t))) with false. cbv iota.
  rewrite U, V. cbn [bind]. rewrite (CellText.strip_nl _ (counts_trimmed n m)). reflexivity.
Qed.
Lemma packing_strip zone : In zone zones -> strip (TecZone.packing zone ++ [nl]) = TecZone.packing zone /\ upper (TecZone.packing zone) = TecZone.packing zone /\
  strip ((TecZone.packing zone ++ $",") ++ [nl]) = TecZone.packing zone ++ $"," /\ upper (TecZone.packing zone ++ $",") = TecZone.packing zone ++ $",".
Proof. intros [<-|[<-|[<-|[<-|[]]]]]; vm_compute; auto. Qed.
Lemma upper_app a b : upper (a ++ b) = upper a ++ upper b.
Proof. apply map_app. Qed.
Lemma location_digits a b c : In c (location_text a b) -> is_digit c = true \/ c = "-"%char.
Proof.
  assert (D : forall n, In c (nat_text n) -> is_digit c = true) by (intros n I; pose proof (TecZone.nat_digits n) as H; rewrite forallb_forall in H; auto).
  unfold location_text. destruct (a =? b); intros I; [left; eauto|]. apply in_app_or in I as [I|[<-|I]]; [left; eauto|now right|left; eauto].
Qed.
Lemma centred_upper a b : strip (TecZone.centred a b ++ [nl]) = TecZone.centred a b /\ upper (TecZone.centred a b) = TecZone.centred a b.
Proof.
  split.
  - apply CellText.strip_nl, CellText.open_close; [eexists _, _; split; reflexivity|]. unfold TecZone.centred. do 2 apply CellText.closes_app. exists $"] = CELLCENTERED", ")"%char. split; reflexivity.
  - unfold TecZone.centred. rewrite !upper_app. assert (E : upper (location_text a b) = location_text a b).
    { pose proof (location_digits a b) as L. induction (location_text a b) as [|c s IH]; [reflexivity|]. cbn [upper map]. f_equal; [|apply IH; intros d I; apply L; now right].
      destruct (L c (or_introl eq_refl)) as [D| ->]; [now apply TecplotProof.upper_digit|reflexivity]. }
    rewrite E. reflexivity.
Qed.
Definition starts_digit (rest : list str) : Prop := match rest with [] => False | l :: _ => exists c s, l = c :: s /\ is_digit c = true end.
Lemma zone_stop rest : starts_digit rest -> zone_lines rest = ([], rest).
Proof.
  destruct rest as [|l rest]; [contradiction|]. intros (c & s & -> & D). assert (S : is_space c = false).
  { clear - D. unfold is_digit in D. destruct c as [[] [] [] [] [] [] [] []]; vm_compute in D |- *; congruence. }
  destruct (head_strip c s S) as (t & E). cbn [zone_lines]. rewrite E. cbn [upper map]. rewrite TecplotProof.upper_digit by exact D. now rewrite D.
Qed.
Lemma zone_found n m p q zone rest : In zone zones -> starts_digit rest ->
  let (more, ls) := zone_lines (tail_lines p q zone ++ rest) in join [sp] (TecZone.counts n m :: more) = zone_line n m p q zone /\ ls = rest.
Proof.
  intros Z SD. destruct (packing_strip zone Z) as (A & B & C & D). destruct (centred_upper (S p) (p + q)) as (E & F). unfold tail_lines, zone_line.
  destruct (q =? 0); cbn [app].
  - cbn [zone_lines]. rewrite A, B, (zone_stop rest SD). change (TecZone.packing zone) with ("D"%char :: $"ATAPACKING = BLOCK, ZONETYPE = " ++ zone). cbv iota beta. split; reflexivity.
  - cbn [zone_lines]. rewrite C, D. change (TecZone.packing zone ++ $",") with ("D"%char :: ($"ATAPACKING = BLOCK, ZONETYPE = " ++ zone) ++ $","). cbv iota beta. change (is_digit "D"%char) with false. cbv iota.
    rewrite E, F. change (TecZone.centred (S p) (p + q)) with ("V"%char :: $"ARLOCATION = ([" ++ location_text (S p) (p + q) ++ $"] = CELLCENTERED)"). cbv iota beta. change (is_digit "V"%char) with false. cbv iota. rewrite (zone_stop rest SD). split; reflexivity.
Qed.
Lemma zone_parsed n m p q zone : In zone zones -> exists pairs, Output.read_zone (zone_line n m p q zone) = Ok pairs /\
  parse_fezone pairs (p + q) = Ok (Fezone n m true zone (repeat false p ++ repeat true q)).
Proof.
  intros Z. unfold zone_line. destruct (Nat.eqb_spec q 0) as [->|N].
  - exists (TecZone.pairs_of n m zone). split; [now apply TecZone.zone_plain|]. rewrite Nat.add_0_r. cbn [repeat]. rewrite app_nil_r. apply TecZone.entries_plain.
  - eexists. split; [apply TecZone.zone_located; [exact Z|]|apply TecZone.entries_located; lia]. intros d I c J X. subst c. apply location_digits in J.
    cbn in I. destruct I as [<-|[<-|[<-|[<-|[]]]]]; destruct J as [J|J]; discriminate J.
Qed.
Lemma first_row ws r : ws <> [] -> (exists c s, hd [] ws = c :: s /\ is_digit c = true) -> starts_digit (word_line ws :: r).
Proof.
  intros N (c & s & E & D). destruct ws as [|w ws]; [congruence|]. cbn [hd] in E. subst w. unfold word_line. exists c.
  destruct ws as [|w' ws]; [exists (s ++ [nl])|exists ((s ++ [sp] ++ join [sp] (w' :: ws)) ++ [nl])]; split; auto.
Qed.

(** ** All together *)
Lemma cells_vars repr (R : faithful repr) cells cd : cells <> [] -> forall sd cs ccols,
  mapM (fun e => let* ds := split_array cells (snd e) in Ok (fst e, ds)) cd = Ok sd ->
  mapM (fun e => if is_axis (fst e) then Ok [] else
    let* ds := take (snd e) (map fst (filter (fun ib => written cells (snd ib)) (numbered cells))) in let* d := concatenate ds in Ok (variables_of repr (fst e, d))) sd = Ok cs ->
  Forall (fun e => regular (snd e)) cd -> Forall2 scalars (map (restricted cells) cd) ccols ->
  Forall2 reads_var (concat cs) (concat ccols) /\ Forall (fun c => List.length (snd c) = List.length (written_cells cells)) (concat ccols).
Proof.
  intros N. induction cd as [|e cd IH]; intros sd cs ccols S W G F.
  - cbn [mapM] in S. assert (sd = []) as -> by congruence. cbn [mapM] in W. assert (cs = []) as -> by congruence. inversion F. split; constructor.
  - cbn [mapM] in S. destruct (split_array cells (snd e)) as [ds|] eqn:ES; cbn [bind] in S; [|discriminate S].
    destruct (mapM (fun e0 => let* ds0 := split_array cells (snd e0) in Ok (fst e0, ds0)) cd) as [sd'|] eqn:ESD; cbn [bind] in S; [|discriminate S].
    assert (sd = (fst e, ds) :: sd') as -> by congruence. clear S. cbn [mapM fst snd] in W.
    match type of W with bind ?v _ = _ => destruct v as [c|] eqn:EC end; cbn [bind] in W; [|discriminate W].
    match type of W with bind ?v _ = _ => destruct v as [cs'|] eqn:ECS end; cbn [bind] in W; [|discriminate W].
    assert (cs = c :: cs') as -> by congruence. clear W. apply Forall_cons_iff in G as [G1 G]. cbn [map] in F.
    inversion F as [|? col ? cols' F1 F2]; subst. cbn [concat]. destruct (IH sd' cs' cols' eq_refl ECS G F2) as [A B].
    enough (X : Forall2 reads_var c col /\ Forall (fun c => List.length (snd c) = List.length (written_cells cells)) col).
    { destruct X as [X Y]. split; [now apply Forall2_app|]. apply Forall_app. auto. }
    destruct (is_axis (fst e)) eqn:AX.
    + assert (c = []) as -> by congruence. apply axis_ok in AX. assert (col = []) as ->; [|split; constructor].
      revert F1 AX. unfold restricted. destruct e as [k d]. cbn [fst snd]. intros F1 AX. inversion F1; subst; auto; contradiction.
    + destruct (take ds _) as [ds'|] eqn:ET; cbn [bind] in EC; [|discriminate EC]. destruct (concatenate ds') as [d|] eqn:ED; cbn [bind] in EC; [|discriminate EC].
      assert (c = variables_of repr (fst e, d)) as -> by congruence. destruct (restricted_ok cells e ds ds' d N ES ET ED) as (E1 & E2 & E3).
      assert (ER : restricted cells e = (fst e, d)) by (rewrite E1; reflexivity). rewrite ER in F1.
      destruct (vars_read repr R (fst e, d) col F1 (E3 G1)) as [P Q]. split; [exact P|]. cbn [snd] in Q. rewrite E2 in Q. exact Q.
Qed.
Lemma axes_first repr points ax : axes repr points = Ok ax -> exists p ps k x ws r, points = p :: ps /\ nth_error p 0 = Some x /\ ax = (k, repr x :: ws) :: r.
Proof.
  unfold axes. destruct points as [|p ps]; [discriminate|]. intros E.
  assert (Q : exists rest, (if List.length p =? 3 then [0; 1; 2] else [0; 1]) = 0 :: rest) by (destruct (List.length p =? 3); eauto). destruct Q as (rest & Q). rewrite Q in E. clear Q.
  cbn [mapM] in E. destruct (item p 0) as [x|] eqn:X; cbn [bind] in E; [|discriminate E].
  destruct (mapM (fun p0 => item p0 0) ps) as [xs|] eqn:XS; cbn [bind] in E; [|discriminate E]. unfold axis_names in E. cbn [item nth_error] in E. cbn [bind] in E.
  unfold item at 1 in E. cbn [nth_error bind] in E.
  match type of E with bind ?v _ = _ => destruct v as [r|] eqn:ER end; cbn [bind] in E; [|discriminate E].
  exists p, ps, $"X", x, (map repr xs), r. split; [reflexivity|]. split; [|cbn [map] in E; congruence]. unfold item in X. destruct (nth_error p 0); congruence.
Qed.
Lemma rows_concat (vars : list (str * list str)) : concat (concat (map (fun v => table_rows 20 (snd v)) vars)) = concat (map snd vars).
Proof. induction vars as [|v vars IH]; [reflexivity|]. cbn [map concat]. rewrite concat_app, IH. f_equal. apply table_concat. Qed.
Lemma reads_names vars cols : Forall2 reads_var vars cols -> map fst vars = map fst cols.
Proof. induction 1 as [|v c vars cols [E _] F IH]; [reflexivity|]. cbn [map]. congruence. Qed.
Lemma sum_length {A} (l : list (list A)) : list_sum (map (@List.length A) l) = List.length (concat l).
Proof. induction l as [|x l IH]; [reflexivity|]. cbn [map concat list_sum fold_right]. rewrite app_length. f_equal. exact IH. Qed.
Lemma flag_sizes (a b : list (str * list flt)) n m : Forall (fun c => List.length (snd c) = n) a -> Forall (fun c => List.length (snd c) = m) b ->
  map (fun c : bool => if c then m else n) (repeat false (List.length a) ++ repeat true (List.length b)) = map (@List.length flt) (map snd (a ++ b)).
Proof.
  intros A B. rewrite map_app, !map_app. f_equal.
  - induction A as [|c a E A IH]; [reflexivity|]. cbn [List.length repeat map]. f_equal; auto.
  - induction B as [|c b E B IH]; [reflexivity|]. cbn [List.length repeat map]. f_equal; auto.
Qed.
Lemma data_text (vars : list (str * list str)) : concat (map (fun v => concat (map word_line (table_rows 20 (snd v)))) vars) = concat (map word_line (concat (map (fun v => table_rows 20 (snd v)) vars))).
Proof. induction vars as [|v vars IH]; [reflexivity|]. cbn [map concat]. rewrite map_app, concat_app. f_equal. exact IH. Qed.
Lemma coordinates_apart d points rest : d = 2 \/ d = 3 -> Forall (fun c : str * list flt => ~ coordinate (fst c)) rest -> NoDup (map fst rest) -> NoDup (map fst (axis_cols d points ++ rest)).
Proof.
  intros D F N. assert (NI : forall s, coordinate $s -> ~ In $s (map fst rest)).
  { intros s C I. apply in_map_iff in I as (c & E & I). rewrite Forall_forall in F. apply (F c I). now rewrite E. }
  assert (CX : forall s, In s ["X"; "Y"; "Z"; "x"; "y"; "z"]%string -> coordinate $s) by (intros s I; exists s; auto).
  assert (NX : ~ In $"X" (map fst rest)) by (apply NI, CX; cbn; tauto). assert (NY : ~ In $"Y" (map fst rest)) by (apply NI, CX; cbn; tauto).
  assert (NZ : ~ In $"Z" (map fst rest)) by (apply NI, CX; cbn; tauto). destruct D as [-> | ->].
  - change (NoDup ($"X" :: $"Y" :: map fst rest)). constructor; [intros [X|I]; [discriminate X|contradiction]|]. constructor; auto.
  - change (NoDup ($"X" :: $"Y" :: $"Z" :: map fst rest)). constructor; [intros [X|[X|I]]; [discriminate X|discriminate X|contradiction]|]. constructor; [intros [X|I]; [discriminate X|contradiction]|]. constructor; auto.
Qed.
Theorem tec_round_trip : forall repr version m file d pcols ccols, write_mesh repr version m = Ok file -> faithful repr -> digit_first repr -> without_newline version ->
  d = 2 \/ d = 3 -> Forall (fun p => List.length p = d /\ Forall (fun x => is_f64 x = true) p) (u_points m) ->
  (forall p x, nth_error (u_points m) 0 = Some p -> nth_error p 0 = Some x -> not_negative x) ->
  complete (u_cells m) -> written_cells (u_cells m) <> [] -> (In 3 (dims (u_cells m)) -> hd 3 (dims (u_cells m)) = 3) ->
  Forall (fun e => regular (snd e) /\ entries (snd e) = List.length (u_points m)) (u_point_data m) -> Forall (fun e => regular (snd e)) (u_cell_data m) ->
  Forall2 scalars (u_point_data m) pcols -> Forall2 scalars (map (restricted (u_cells m)) (u_cell_data m)) ccols ->
  Forall (fun c => readable (fst c)) (concat pcols ++ concat ccols) -> NoDup (map fst (concat pcols ++ concat ccols)) ->
  exists c t conn, read_mesh file = Ok c /\ u_points c = u_points m /\ u_cells c = [(t, conn)] /\
    Forall2 (same_edges t) (written_cells (u_cells m)) conn /\
    (forall t0, plain_type t0 -> (forall b, In b (u_cells m) -> kind_of (fst b) <> None -> fst b = t0) -> t = t0 /\ conn = map snd (written_cells (u_cells m))) /\
    u_point_data c = map floats (concat pcols) /\ (forall l, renamed (map floats (concat ccols)) l -> u_cell_data c = l).
Proof.
  intros repr version m file d pcols ccols H R DF NV D P NN CO WN D3 PD CD SP SC RD ND. unfold write_mesh in H.
  destruct (mapM (fun e => let* ds := split_array (u_cells m) (snd e) in Ok (fst e, ds)) (u_cell_data m)) as [sd|] eqn:ESD; cbn [bind] in H; [|discriminate H]. unfold write in H.
  destruct (chosen (u_cells m)) as [[[ics zone] conn]|] eqn:ECH; cbn [bind] in H; [|discriminate H].
  destruct (chosen_ok _ _ _ _ ECH CO D3) as (EI & ZI & t & k' & TZ & KT & CE & CP). subst ics.
  destruct (axes repr (u_points m)) as [ax|] eqn:EAX; cbn [bind] in H; [|discriminate H].
  match type of H with bind ?v _ = _ => destruct v as [cs|] eqn:ECS end; cbn [bind] in H; [|discriminate H].
  assert (CNE : u_cells m <> []) by (intros E; rewrite E in WN; now apply WN).
  assert (PL : Forall (fun p => List.length p = d) (u_points m)) by (eapply Forall_impl; [|exact P]; now intros p [L _]).
  assert (PF : f64s (u_points m)) by (unfold f64s; eapply Forall_impl; [|exact P]; now intros p [_ L]).
  pose proof (axes_read repr R _ _ d EAX PL D PF) as RA.
  destruct (axes_first repr _ _ EAX) as (p0 & ps & k0 & x0 & ws0 & r0 & EP & EX & EAX0).
  destruct (vars_all repr R _ _ (List.length (u_points m)) SP PD) as [RP LP].
  destruct (cells_vars repr R (u_cells m) (u_cell_data m) CNE sd cs ccols ESD ECS CD SC) as [RC LC].
  assert (LW : List.length (written_cells (u_cells m)) = List.length conn) by (eapply Forall2_length; exact CE). rewrite LW in LC.
  set (pv := concat (map (variables_of repr) (u_point_data m))) in *. set (nodal := axis_cols d (u_points m) ++ concat pcols).
  assert (RN : Forall2 reads_var (ax ++ pv) nodal) by (apply Forall2_app; auto).
  assert (RV : Forall2 reads_var ((ax ++ pv) ++ concat cs) (nodal ++ concat ccols)) by (apply Forall2_app; auto).
  set (vars := (ax ++ pv) ++ concat cs) in *. set (cols := nodal ++ concat ccols) in *.
  assert (HS : map fst vars = map fst cols) by now apply reads_names.
  assert (PN : List.length (ax ++ pv) = List.length nodal) by (eapply Forall2_length; exact RN).
  set (n := List.length (u_points m)) in *. set (mc := List.length conn) in *. set (p := List.length nodal) in *. set (q := List.length (concat ccols)) in *.
  assert (LV : List.length vars = p + q). { rewrite (Forall2_length _ _ _ RV). unfold cols. apply app_length. }
  assert (TOF : (S (List.length (ax ++ pv)) <=? match sd with [] => 0 | _ => List.length vars end) = negb (q =? 0)).
  { rewrite PN, LV. fold p. destruct sd as [|s0 sd].
    - cbn [mapM] in ECS. assert (cs = []) as E0 by congruence. rewrite E0 in RC. cbn [concat] in RC. assert (q = 0) as -> by (unfold q; inversion RC; reflexivity). reflexivity.
    - destruct (Nat.eqb_spec q 0) as [->|Q]; cbn [negb]; [apply Nat.leb_gt; lia|apply Nat.leb_le; lia]. }
  assert (TOQ : q <> 0 -> match sd with [] => 0 | _ => List.length vars end = p + q).
  { intros Q. rewrite LV. destruct sd as [|s0 sd]; [|reflexivity]. exfalso. apply Q. cbn [mapM] in ECS. assert (cs = []) as E0 by congruence. rewrite E0 in RC. cbn [concat] in RC. unfold q; inversion RC; reflexivity. }
  set (rows := concat (map (fun v => table_rows 20 (snd v)) vars)) in *.
  set (cell_line := fun c : list nat => word_line (map (fun v => nat_text (S v)) c)) in *.
  assert (EF : file = concat ([title version; TecZone.names_line (map fst cols); TecZone.counts n mc ++ [nl]] ++ tail_lines p q zone ++ map word_line rows ++ map cell_line conn)).
  { match type of H with Ok ?v = _ => transitivity v; [congruence|] end. clear H. rewrite TOF, PN. fold p. rewrite (data_text vars). fold rows.
    rewrite !concat_app. cbn [concat]. unfold title, TecZone.names_line, TecZone.counts, tail_lines. rewrite <- HS, map_map.
    destruct (Nat.eqb_spec q 0) as [Q|Q]; [|rewrite (TOQ Q)]; cbn [negb concat]; unfold TecZone.packing, TecZone.centred; rewrite <- ?app_assoc; cbn [app]; rewrite <- ?app_assoc; cbn [app]; reflexivity. }
  clear H.
  assert (CN : Forall (fun c => ~ coordinate (fst c)) (concat pcols ++ concat ccols)).
  { apply Forall_app. split; [exact (scalars_names _ _ SP)|exact (scalars_names _ _ SC)]. }
  assert (NDC : NoDup (map fst cols)).
  { unfold cols, nodal. rewrite <- app_assoc. now apply coordinates_apart. }
  assert (RDC : Forall readable (map fst cols)).
  { apply Forall_map. unfold cols, nodal. rewrite <- app_assoc. apply Forall_app. split; [|exact RD].
    assert (RX : forall s, In s [$"X"; $"Y"; $"Z"] -> readable s).
    { intros s I. split; [intros ->; cbn in I; intuition discriminate|]. intros c J.
      assert (C : c = "X"%char \/ c = "Y"%char \/ c = "Z"%char) by (destruct I as [<-|[<-|[<-|[]]]]; destruct J as [<-|[]]; auto).
      destruct C as [->|[->| ->]]; (split; [reflexivity|split; [discriminate|split; discriminate]]). }
    unfold axis_cols. apply Forall_map, Forall_forall. intros i I. cbn [fst]. apply RX. apply in_seq in I. assert (Q : i = 0 \/ i = 1 \/ i = 2) by lia.
    destruct Q as [-> | [-> | ->]]; [left|right; left|right; right; left]; reflexivity. }
  assert (INX : In $"X" (map fst cols) /\ In $"Y" (map fst cols)).
  { unfold cols, nodal. rewrite <- app_assoc, map_app. split; apply in_or_app; left; destruct D as [-> | ->]; cbn; tauto. }
  destruct (all_rows vars cols RV) as (RNE & xss & RX & XC). fold rows in RNE, RX.
  assert (RW : Forall (Forall isword) rows) by (clear - RX; induction RX as [|r xs rows xss F FF IH]; constructor; auto; eapply reads_words; eauto).
  assert (ROWS : exists r rr, rows = r :: rr /\ exists w, r = repr x0 :: w).
  { assert (Q : concat rows = repr x0 :: ws0 ++ concat (map snd (r0 ++ pv ++ concat cs))).
    { unfold rows. rewrite rows_concat. unfold vars. rewrite EAX0, <- app_assoc. cbn [app map snd concat]. reflexivity. }
    destruct rows as [|r rr]; [discriminate Q|]. exists r, rr. split; [reflexivity|]. apply Forall_inv in RNE. destruct r as [|y r]; [congruence|]. cbn [concat app] in Q. exists r. congruence. }
  destruct ROWS as (r & rr & ER & w & EW).
  assert (SD : starts_digit (map word_line rows ++ map cell_line conn)).
  { rewrite ER. cbn [map app]. apply first_row; rewrite EW; [discriminate|]. cbn [hd].
    rewrite EP in NN. destruct (NN p0 x0 eq_refl EX) as (mm & ee & E0). rewrite E0. apply DF. rewrite <- E0.
    rewrite EP in PF. apply Forall_inv in PF. rewrite Forall_forall in PF. apply PF. eapply nth_error_In; eauto. }
  assert (CNN : Forall (fun c : list nat => c <> []) conn).
  { apply Forall_forall. intros c I. assert (L : List.length c = k_nodes k') by (clear - CE I; induction CE as [|a b l l' [_ L] F IH]; [destruct I|]; destruct I as [<-|I]; auto).
    intros ->. cbn in L. clear - KT L. unfold kind_of in KT. apply find_some in KT as [I _]. cbn in I. destruct I as [<-|[<-|[<-|[<-|[<-|[<-|[]]]]]]]; discriminate L. }
  destruct INX as [IX IY].
  exists (Ucd (u_points m) [(t, conn)] (map floats (concat pcols)) (match find (fun e => is_material (fst e)) (map floats (concat ccols)) with
    | Some (k, v) => sset $"material" v (filter (fun e => negb (streqb (fst e) k)) (map floats (concat ccols))) | None => map floats (concat ccols) end)), t, conn. cbn [u_points u_cells u_point_data u_cell_data].
  split; [|split; [reflexivity|split; [reflexivity|split; [|split; [exact CP|split; [reflexivity|]]]]]].
  2:{ eapply PruneProof.Forall2_impl; [|exact CE]. intros a b [A _]. exact A. }
  2:{ intros l RN'. apply renamed_ok; [exact RN'|]. rewrite map_map. cbn [floats fst]. clear - ND. rewrite map_app in ND. revert ND. generalize (map fst (concat pcols)). intros l N. induction l; [exact N|inversion_clear N; auto]. }
  unfold read_mesh. rewrite EF, lines_of.
  2:{ apply Forall_app. split.
      - apply Forall_cons; [|apply Forall_cons; [|apply Forall_cons; [|apply Forall_nil]]].
        + exists ($"TITLE = " ++ quoted ($"Written by toughio v" ++ version)). split; [unfold title; now rewrite <- app_assoc|]. fold (nonl ($"TITLE = " ++ quoted ($"Written by toughio v" ++ version))).
          unfold quoted. rewrite nonl_app. cbn [nonl forallb]. change (nonl $"TITLE = ") with true. change (Output.quote :: ($"Written by toughio v" ++ version) ++ [Output.quote]) with ((Output.quote :: $"Written by toughio v") ++ version ++ [Output.quote]).
          rewrite !nonl_app. rewrite (F3Write.nonl_of _ NV). reflexivity.
        + exact (proj1 (TecZone.names_read _ RDC IX IY)).
        + eexists. split; [reflexivity|]. fold (nonl (TecZone.counts n mc)). unfold TecZone.counts. rewrite !nonl_app, !(nonl_word (nat_text _)) by apply isword_nat. reflexivity.
      - apply Forall_app. split.
        + unfold tail_lines. assert (NZ : nonl zone = true) by (clear - ZI; destruct ZI as [<-|[<-|[<-|[<-|[]]]]]; reflexivity).
          destruct (q =? 0).
          * apply Forall_cons; [|apply Forall_nil]. eexists. split; [reflexivity|]. fold (nonl (TecZone.packing zone)). unfold TecZone.packing. rewrite nonl_app, NZ. reflexivity.
          * apply Forall_cons; [|apply Forall_cons; [|apply Forall_nil]]; eexists; (split; [reflexivity|]).
            -- fold (nonl (TecZone.packing zone ++ $",")). unfold TecZone.packing. rewrite !nonl_app, NZ. reflexivity.
            -- fold (nonl (TecZone.centred (S p) (p + q))). unfold TecZone.centred. rewrite !nonl_app. assert (NL : nonl (location_text (S p) (p + q)) = true); [|rewrite NL; reflexivity].
               unfold nonl. apply forallb_forall. intros c I. apply location_digits in I. apply negb_true_iff, Ascii.eqb_neq. intros ->. destruct I as [I|I]; discriminate I.
        + apply Forall_app. split; apply Forall_map.
          * eapply Forall_impl; [|exact RW]. intros a A. now apply one_word_line.
          * apply Forall_forall. intros c _. apply one_word_line. apply Forall_map. apply Forall_forall. intros v _. apply isword_nat. }
  cbn [app]. rewrite (title_found version (map fst cols) n mc _ RDC IX IY). cbn [bind].
  pose proof (zone_found n mc p q zone (map word_line rows ++ map cell_line conn) ZI SD) as ZF.
  destruct (zone_lines (tail_lines p q zone ++ map word_line rows ++ map cell_line conn)) as [more ls]. destruct ZF as [ZJ ->]. rewrite ZJ.
  destruct (zone_parsed n mc p q zone ZI) as (pairs & RZ & PZ). rewrite RZ. cbn [bind].
  assert (LH : List.length (map fst cols) = p + q) by (rewrite map_length; unfold cols; apply app_length). rewrite LH, PZ. cbn [bind z_block z_centred z_cells z_nodes z_type].
  assert (LN : Forall (fun c => List.length (snd c) = n) nodal) by (apply Forall_app; split; [apply axis_lengths|exact LP]).
  pose proof (flag_sizes nodal (concat ccols) n mc LN LC) as FS. fold p q cols in FS. rewrite FS. rewrite sum_length, <- XC.
  rewrite (rows_read rows xss (map cell_line conn) RX RNE). cbn [bind fst snd]. pose proof (cells_read conn CNN) as CR. fold cell_line mc in CR. rewrite CR. cbn [bind].
  assert (CNZ : conn <> []) by (intros E; apply WN; apply length_zero_iff_nil; rewrite LW; unfold mc; now rewrite E).
  assert (G1 : (List.length (map (map (fun v => Z.of_nat (S v))) conn) =? 0) = false) by (apply Nat.eqb_neq; rewrite map_length; intros E; apply CNZ; now apply length_zero_iff_nil).
  rewrite G1. cbn [negb guard bind].
  assert (CL : Forall (fun c : list nat => List.length c = k_nodes k') conn) by (clear - CE; induction CE as [|a b l l' [_ L] F IH]; constructor; auto).
  assert (G2 : forallb (fun c => List.length c =? List.length (hd [] (map (map (fun v => Z.of_nat (S v))) conn))) (map (map (fun v => Z.of_nat (S v))) conn) = true).
  { assert (HD : List.length (hd [] (map (map (fun v => Z.of_nat (S v))) conn)) = k_nodes k') by (destruct conn as [|c0 conn']; [congruence|]; cbn [map hd]; rewrite map_length; now apply Forall_inv in CL).
    rewrite HD. apply forallb_forall. intros c I. apply in_map_iff in I as (c' & <- & I). rewrite map_length. apply Nat.eqb_eq. rewrite Forall_forall in CL. now apply CL. }
  rewrite G2. cbn [guard bind].
  assert (G3 : (List.length xss =? 0) = false) by (apply Nat.eqb_neq; rewrite <- (Forall2_length _ _ _ RX), ER; discriminate).
  rewrite G3. cbn [negb guard bind]. rewrite XC, pieces_back.
  2:{ unfold cols, nodal. destruct D as [-> | ->]; discriminate. }
  rewrite F3Write.combine_fst_snd. rewrite sset_many by exact NDC. cbn [app].
  pose proof (sorted_out cols nodal (concat ccols) NDC (incl_refl _) NDC) as SO. fold p q cols in SO. unfold sort_step in SO.
  match goal with |- bind ?v _ = _ => assert (EV : v = Ok (nodal, concat ccols)) by exact SO end. rewrite EV. clear EV SO. cbn [bind].
  pose proof (popped d (u_points m) (concat pcols) D (proj1 (proj1 (Forall_app _ _ _) CN))) as PO. cbn zeta in PO. fold nodal in PO. unfold pop_step in PO.
  match goal with |- bind ?v _ = _ => assert (EV : v = Ok (map snd (axis_cols d (u_points m)), concat pcols)) by exact PO end. rewrite EV. clear EV PO. cbn [bind fst snd].
  rewrite (points_back d _ PL D). cbn [bind]. rewrite TZ. cbn [bind].
  assert (EN : mapM (mapM node_number) (map (map (fun v => Z.of_nat (S v))) conn) = Ok conn).
  { clear. induction conn as [|c conn IH]; [reflexivity|]. cbn [map mapM]. rewrite numbers_back. cbn [bind]. now rewrite IH. }
  rewrite EN. cbn [bind]. reflexivity.
Qed.
