(** Reading back an AVS-UCD file. *)
From Coq Require Import String Ascii Arith ZArith Bool Lia List.
From Verif Require Import Base.Str Base.Digits Base.Flt Base.FltText Base.FltInt Base.FltExact Model.Py Model.Numpy Model.Mesh Model.F3grid Model.Avsucd
  Spec.MeshCells Spec.F3grid Spec.Avsucd Proofs.F3Build Proofs.F3Binary Proofs.F3Text Proofs.F3Finish.
From Verif Require Proofs.TecplotProof Proofs.TimeSeriesProof Proofs.ParamProof Proofs.NumpyProof Proofs.BlocksProof Proofs.MaterialProof Proofs.CylinderProof.
Import ListNotations.
Local Open Scope nat_scope.

(** ** Lines *)
Lemma words_of_split l : words_of l = split_ws l.
Proof. apply TecplotProof.split_ws_strip. Qed.
Lemma words_line ws : Forall isword ws -> ws <> [] -> words_of (word_line ws) = ws.
Proof. intros F N. rewrite words_of_split. unfold word_line. apply join_words; auto. Qed.
Lemma each_line_fold {A} (step : A -> list str -> res A) ls r : forall a,
  each_line (List.length ls) step a (ls ++ r) = let* b := foldM step a (map words_of ls) in Ok (b, r).
Proof.
  induction ls as [|l ls IH]; intros a; [reflexivity|]. cbn [List.length each_line app readline map foldM].
  destruct (step a (words_of l)) as [b|]; cbn [bind]; auto.
Qed.
Lemma head_strip c s : is_space c = false -> exists t, strip (c :: s) = c :: t.
Proof.
  intros C. unfold strip. cbn [lstrip]. rewrite C. unfold rstrip. cbn [rev].
  assert (G : forall k, lstrip (k ++ [c]) = lstrip k ++ [c] /\ True \/ lstrip (k ++ [c]) = [c]).
  { induction k as [|d k IH]; [right; cbn; now rewrite C|]. cbn [app lstrip]. destruct (is_space d); auto. }
  destruct (G (rev s)) as [[-> _]| ->]; [|now exists []]. exists (rev (lstrip (rev s))). now rewrite rev_app_distr.
Qed.

(** ** Nodes *)
Lemma parse_float_nat n : parse_float (nat_text n) = Some (flt_of_Z (Z.of_nat n)).
Proof.
  unfold nat_text. set (z := Z.of_nat n). assert (P : (0 <= z)%Z) by (unfold z; lia).
  assert (D : exists c r, digits z = c :: r /\ is_digit c = true).
  { pose proof (digits_all z) as A. pose proof (nonempty_digits z) as N. destruct (digits z) as [|c r]; [discriminate N|].
    cbn in A. apply andb_true_iff in A as [A _]. eauto. }
  destruct D as (c & r & E & D).
  assert (U : parse_udec (digits z) = Some (z, 0)%Z).
  { unfold parse_udec. pose proof (span_digits_app (digits z) []) as SP. rewrite app_nil_r in SP. rewrite SP; [|apply digits_all|exact I].
    rewrite app_nil_r, nonempty_digits. cbn [parse_exp List.length]. rewrite of_digits_digits by lia. f_equal. }
  assert (PR : print_Z z = digits z) by (unfold print_Z; destruct (Z.ltb_spec z 0); [lia|reflexivity]). rewrite PR.
  change (digits z) with (sign_str false ++ digits z).
  rewrite (parse_float_signed false (digits z) z 0 c r); auto.
  - f_equal. unfold flt_of_dec, flt_of_Z, frac. destruct (Z.ltb_spec z 0); [lia|]. rewrite Z.abs_eq by lia. cbn. f_equal. lia.
  - apply digits_clean, digits_all.
Qed.
Lemma whole_nat n : (Z.of_nat n < 2 ^ 53)%Z -> whole (flt_of_Z (Z.of_nat n)) = Ok (Z.of_nat n).
Proof.
  intros H. pose proof (ParamProof.int_of_flt_of_Z (Z.of_nat n) ltac:(lia)) as E. unfold whole.
  destruct (flt_of_Z (Z.of_nat n)) as [s m e|s|]; [now rewrite E|discriminate E|discriminate E].
Qed.
Definition point_words (repr : flt -> str) (ip : nat * list flt) : list str := nat_text (S (fst ip)) :: map repr (snd ip).
Lemma node_line_ok repr ip l : node_line repr ip = Ok l -> List.length (snd ip) = 3 /\ l = word_line (point_words repr ip).
Proof.
  unfold node_line, point_words. destruct (snd ip) as [|x [|y [|z [|? ?]]]]; try discriminate. intros H. split; [reflexivity|]. congruence.
Qed.
Section Repr.
Variable repr : flt -> str.
Hypothesis R : faithful repr.
Lemma isword_repr x : is_f64 x = true -> isword (repr x).
Proof.
  intros H. destruct (R x H) as (_ & N & S). split; auto. unfold no_space_str. apply forallb_forall. intros c I. now rewrite S.
Qed.
Lemma point_isword ip : Forall (fun x => is_f64 x = true) (snd ip) -> Forall isword (point_words repr ip).
Proof.
  intros F. constructor; [apply isword_nat|]. apply Forall_map. eapply Forall_impl; [|exact F]. apply isword_repr.
Qed.
Lemma point_floats ip : Forall (fun x => is_f64 x = true) (snd ip) ->
  mapM to_flt (point_words repr ip) = Ok (flt_of_Z (pid (fst ip)) :: snd ip).
Proof.
  intros F. unfold point_words. cbn [mapM]. unfold to_flt at 1. rewrite parse_float_nat. cbn [bind].
  assert (E : mapM to_flt (map repr (snd ip)) = Ok (snd ip)).
  { induction F as [|x l X F IH]; [reflexivity|]. cbn [map mapM]. unfold to_flt at 1. destruct (R x X) as (-> & _). cbn [bind]. now rewrite IH. }
  rewrite E. reflexivity.
Qed.
Lemma fold_nodes (ips : list (nat * list flt)) : Forall (fun ip => Forall (fun x => is_f64 x = true) (snd ip)) ips -> forall acc,
  foldM (fun (data : list (list flt)) ws => let* xs := mapM to_flt ws in Ok (data ++ [xs])) acc (map (point_words repr) ips) =
  Ok (acc ++ map (fun ip => flt_of_Z (pid (fst ip)) :: snd ip) ips).
Proof.
  induction 1 as [|ip ips X F IH]; intros acc; cbn [map foldM]; [now rewrite app_nil_r|].
  rewrite point_floats by auto. cbn [bind]. rewrite IH. now rewrite <- app_assoc.
Qed.
Lemma mapM_nodes ips ls : mapM (node_line repr) ips = Ok ls -> Forall (fun ip => List.length (snd ip) = 3) ips /\ ls = map (fun ip => word_line (point_words repr ip)) ips.
Proof.
  revert ls. induction ips as [|ip ips IH]; intros ls H; cbn [mapM] in H; [injection H as <-; split; auto|].
  destruct (node_line repr ip) as [l|] eqn:E; [|discriminate H]. cbn [bind] in H. destruct (mapM (node_line repr) ips) as [k|]; [|discriminate H].
  cbn [bind] in H. assert (ls = l :: k) as -> by congruence. destruct (IH k eq_refl) as (F & ->). apply node_line_ok in E as (L & ->). split; auto.
Qed.
Lemma zset_seq n : forall a, fold_left (fun d ip => zset (snd ip) (fst ip) d) (combine (seq a n) (map pid (seq a n))) (keyed 0 (seq 0 a)) = keyed 0 (seq 0 (a + n)).
Proof.
  induction n as [|n IH]; intros a; cbn [seq map combine fold_left fst snd]; [now rewrite Nat.add_0_r|].
  pose proof (keyed_snoc 0 (seq 0 a) a) as K. rewrite seq_length in K. cbn [Nat.add] in K. rewrite K.
  change (seq 0 a ++ [a]) with (seq 0 a ++ [0 + a]). rewrite <- seq_S. rewrite IH. f_equal. f_equal. lia.
Qed.
Lemma numbered_map {A B} (f : A -> B) l : numbered (map f l) = map (fun ip => (fst ip, f (snd ip))) (numbered l).
Proof.
  unfold numbered. rewrite map_length. generalize 0. induction l as [|x l IH]; intros a; [reflexivity|]. cbn. now rewrite IH.
Qed.
Lemma numbered_fst {A} (l : list A) : map fst (numbered l) = seq 0 (List.length l).
Proof. unfold numbered. generalize 0. induction l as [|x l IH]; intros a; [reflexivity|]. cbn. now rewrite IH. Qed.
Lemma numbered_snd {A} (l : list A) : map snd (numbered l) = l.
Proof. unfold numbered. generalize 0. induction l as [|x l IH]; intros a; [reflexivity|]. cbn. now rewrite IH. Qed.
Lemma read_nodes_ok pts ls r : pts <> [] -> (Z.of_nat (List.length pts) < 2 ^ 53)%Z -> Forall (Forall (fun x => is_f64 x = true)) pts ->
  mapM (node_line repr) (numbered pts) = Ok ls ->
  read_nodes (List.length pts) (ls ++ r) = Ok (keyed 0 (seq 0 (List.length pts)), pts, r).
Proof.
  intros N B F H. apply mapM_nodes in H as (L & ->). unfold read_nodes.
  assert (F' : Forall (fun ip => Forall (fun x => is_f64 x = true) (snd ip)) (numbered pts)).
  { apply Forall_forall. intros ip I. rewrite Forall_forall in F. apply F. rewrite <- (numbered_snd pts). now apply in_map. }
  assert (L' : Forall (fun p => List.length p = 3) pts).
  { rewrite <- (numbered_snd pts). apply Forall_map. exact L. }
  assert (LN : List.length (numbered pts) = List.length pts) by (unfold numbered; rewrite combine_length, seq_length; lia).
  assert (EL : each_line (List.length pts) (fun data ws => let* xs := mapM to_flt ws in Ok (data ++ [xs])) []
    (map (fun ip => word_line (point_words repr ip)) (numbered pts) ++ r) = Ok (map (fun ip => flt_of_Z (pid (fst ip)) :: snd ip) (numbered pts), r)).
  { rewrite <- LN, <- (map_length (fun ip => word_line (point_words repr ip)) (numbered pts)). rewrite each_line_fold. rewrite map_map.
    rewrite (map_ext_in _ (point_words repr)).
    - rewrite fold_nodes by auto. reflexivity.
    - intros ip I. apply words_line; [|discriminate]. apply point_isword. rewrite Forall_forall in F'. now apply F'. }
  rewrite EL. cbn [bind fst snd].
  assert (RC : rectangular (map (fun ip => flt_of_Z (pid (fst ip)) :: snd ip) (numbered pts)) = true).
  { unfold rectangular. destruct (numbered pts) as [|ip ips]; [reflexivity|]. cbn [map]. rewrite forallb_forall. intros q I. apply in_map_iff in I as (ip' & <- & I).
    cbn [List.length]. inversion_clear L as [|? ? L1 L2]. rewrite Forall_forall in L2. rewrite (L2 _ I), L1. reflexivity. }
  rewrite RC. cbn [guard bind]. destruct (Nat.eqb_spec (List.length pts) 0) as [Z|Z]; [destruct pts; [now elim N|discriminate Z]|]. cbn [negb guard bind].
  assert (H1 : mapM (fun p => item p 0) (map (fun ip => flt_of_Z (pid (fst ip)) :: snd ip) (numbered pts)) = Ok (map (fun i => flt_of_Z (pid i)) (seq 0 (List.length pts)))).
  { rewrite <- numbered_fst, map_map. clear. induction (numbered pts) as [|ip l IH]; [reflexivity|]. cbn [map mapM]. unfold item at 1. cbn [nth_error bind].
    now rewrite IH. }
  rewrite H1. cbn [bind].
  assert (H2 : mapM whole (map (fun i => flt_of_Z (pid i)) (seq 0 (List.length pts))) = Ok (map pid (seq 0 (List.length pts)))).
  { assert (G : forall l, Forall (fun i => S i <= List.length pts) l -> mapM whole (map (fun i => flt_of_Z (pid i)) l) = Ok (map pid l)).
    { induction 1 as [|i l I G IH]; [reflexivity|]. cbn [map mapM]. unfold pid at 1. rewrite whole_nat by lia. cbn [bind]. now rewrite IH. }
    apply G. apply Forall_forall. intros i I. apply in_seq in I. lia. }
  rewrite H2. cbn [bind].
  assert (H3 : fold_left (fun d ip => zset (snd ip) (fst ip) d) (numbered (map pid (seq 0 (List.length pts)))) [] = keyed 0 (seq 0 (List.length pts))).
  { unfold numbered. rewrite map_length, seq_length. exact (zset_seq (List.length pts) 0). }
  assert (H4 : map (skipn 1) (map (fun ip => flt_of_Z (pid (fst ip)) :: snd ip) (numbered pts)) = pts).
  { rewrite map_map. cbn [skipn]. apply numbered_snd. }
  rewrite H4. do 3 f_equal. exact H3.
Qed.
End Repr.

(** ** Cells *)
Definition cell_words (ic : nat * (str * list nat)) (m : Z) (t : str) (cell : list nat) : list str :=
  nat_text (S (fst ic)) :: print_Z m :: t :: map (fun v => nat_text (S v)) cell.
Lemma short_long t s : assoc t short_types = Ok s -> assoc s long_types = Ok t /\ isword s.
Proof.
  intros H. unfold short_types in H. cbn [assoc] in H.
  Ltac try_type H := match type of H with (if streqb ?t ?k then Ok ?v else _) = Ok ?s =>
    let X := fresh in destruct (streqb t k) eqn:X; [apply streqb_eq in X; assert (v = s) by congruence; subst s t; split; [vm_compute; reflexivity|split; [discriminate|vm_compute; reflexivity]]|] end.
  do 8 try_type H. discriminate H.
Qed.
Lemma take_short {A} (cell : list A) is i : In i is -> List.length cell <= i -> forall r, take cell is <> Ok r.
Proof.
  intros I L r H. unfold take in H. apply MaterialProof.mapM_F2 in H. revert I. induction H as [|j x is' r' J F IH]; intros I; [destruct I|].
  destruct I as [->|I]; auto. unfold item in J. apply nth_error_None in L. rewrite L in J. discriminate J.
Qed.
Lemma order_back t order (cell cell' : list nat) : assoc t to_ucd = Ok order -> take cell order = Ok cell' ->
  exists s n back, In (s, n) linear /\ t = $s /\ n <= List.length cell /\ List.length cell' = n /\ assoc t of_ucd = Ok back /\ take cell' back = Ok (firstn n cell).
Proof.
  intros H T. unfold to_ucd in H.
  assert (G : forall s n o b, t = $s -> order = o -> In (s, n) linear -> assoc t of_ucd = Ok b -> In (n - 1) o -> 0 < n ->
    (forall c : list nat, List.length c = n -> forall r, exists c', take (c ++ r) o = Ok c' /\ List.length c' = n /\ take c' b = Ok c) ->
    exists s n back, In (s, n) linear /\ t = $s /\ n <= List.length cell /\ List.length cell' = n /\ assoc t of_ucd = Ok back /\ take cell' back = Ok (firstn n cell)).
  { intros s n o b E O I B M P X. subst order. exists s, n, b. split; auto. split; auto.
    assert (LE : n <= List.length cell). { destruct (le_lt_dec n (List.length cell)); auto. exfalso. apply (take_short cell o (n - 1) M) in T; [exact T|lia]. }
    destruct (X (firstn n cell)) with (r := skipn n cell) as (c' & T' & L & BK); [rewrite firstn_length; lia|].
    rewrite firstn_skipn in T'. assert (c' = cell') as -> by congruence. auto. }
  assert (D : forall (P : list nat -> Prop) n, (fix all n := match n with O => fun P => P [] | S k => fun P => forall x : nat, all k (fun l => P (x :: l)) end) n P ->
    forall c, List.length c = n -> P c).
  { intros P n. revert P. induction n as [|n IH]; intros P A c L; [destruct c; [exact A|discriminate L]|]. destruct c as [|x c]; [discriminate L|].
    apply (IH (fun l => P (x :: l))); [apply A|cbn in L; lia]. }
  cbn [assoc] in H.
  Ltac one G D s n := eapply (G s n); [assumption|reflexivity|cbn; tauto|subst; reflexivity|cbn; tauto|lia|];
    let c := fresh in let L := fresh in intros c L; pattern c; revert c L; apply D; intros; eexists; split; [reflexivity|split; reflexivity].
  destruct (streqb t $"vertex") eqn:E; [apply streqb_eq in E; injection H as <-; one G D "vertex"%string 1|clear E].
  destruct (streqb t $"line") eqn:E; [apply streqb_eq in E; injection H as <-; one G D "line"%string 2|clear E].
  destruct (streqb t $"triangle") eqn:E; [apply streqb_eq in E; injection H as <-; one G D "triangle"%string 3|clear E].
  destruct (streqb t $"quad") eqn:E; [apply streqb_eq in E; injection H as <-; one G D "quad"%string 4|clear E].
  destruct (streqb t $"tetra") eqn:E; [apply streqb_eq in E; injection H as <-; one G D "tetra"%string 4|clear E].
  destruct (streqb t $"pyramid") eqn:E; [apply streqb_eq in E; injection H as <-; one G D "pyramid"%string 5|clear E].
  destruct (streqb t $"wedge") eqn:E; [apply streqb_eq in E; injection H as <-; one G D "wedge"%string 6|clear E].
  destruct (streqb t $"hexahedron") eqn:E; [apply streqb_eq in E; injection H as <-; one G D "hexahedron"%string 8|clear E].
  discriminate H.
Qed.
Definition translated_cell (a b : str * list nat) : Prop := fst b = fst a /\ exists order, assoc (fst a) to_ucd = Ok order /\ take (snd a) order = Ok (snd b).
Lemma ucd_cell_ok material ic l : ucd_cell material ic = Ok l -> exists b m t, translated_cell (snd ic) b /\ to_whole material (fst ic) = Ok m /\
  assoc (fst (snd ic)) short_types = Ok t /\ l = word_line (cell_words ic m t (snd b)).
Proof.
  unfold ucd_cell. intros H. destruct (assoc (fst (snd ic)) to_ucd) as [order|] eqn:O; [|discriminate H]. cbn [bind] in H.
  destruct (take (snd (snd ic)) order) as [cell|] eqn:T; [|discriminate H]. cbn [bind] in H.
  destruct (to_whole material (fst ic)) as [m|] eqn:M; [|discriminate H]. cbn [bind] in H.
  destruct (assoc (fst (snd ic)) short_types) as [t|] eqn:S; [|discriminate H]. cbn [bind] in H.
  exists (fst (snd ic), cell), m, t. split; [split; [reflexivity|eauto]|]. split; auto. split; auto. unfold cell_words. cbn [snd]. congruence.
Qed.
Lemma push_ucd cells t cell : add_ucd_cell cells t cell = push cells (t, cell).
Proof. unfold add_ucd_cell, push. cbn [fst snd]. destruct (rev cells) as [|[t' rows] r]; auto. now rewrite streqb_sym. Qed.
Lemma take_below cell is n cell' : Forall (fun v => v < n) cell -> take cell is = Ok cell' -> Forall (fun v => v < n) cell'.
Proof.
  intros F T. unfold take in T. apply MaterialProof.mapM_F2 in T. rewrite Forall_forall in F. induction T as [|i v is' cell' I T IH]; constructor; auto.
  apply F. unfold item in I. destruct (nth_error cell i) as [w|] eqn:E; [|discriminate I]. apply nth_error_In in E. now injection I as <-.
Qed.
Lemma read_one n st i a b m t s ids : translated_cell a b -> Forall (fun v => v < n) (snd a) -> assoc (fst a) short_types = Ok t ->
  List.length (snd (fst st)) = i -> ids = keyed 0 (seq 0 i) -> st = (fst (fst st), snd (fst st), ids) -> s = cell_words (i, a) m t (snd b) ->
  words_of (word_line s) = s /\
  read_ucd_cell (keyed 0 (seq 0 n)) st s = Ok (push (fst (fst st)) b, snd (fst st) ++ [m], keyed 0 (seq 0 (S i))).
Proof.
  intros (TF & order & O & T) V SH L -> -> ->. destruct (short_long _ _ SH) as (LG & W). split.
  - apply words_line; [|discriminate]. unfold cell_words. constructor; [apply isword_nat|]. constructor; [apply isword_print|]. constructor; auto.
    apply Forall_map. apply Forall_forall. intros v _. apply isword_nat.
  - unfold read_ucd_cell, cell_words. cbn [fst snd]. unfold item. cbn [nth_error bind]. rewrite to_int_nat. cbn [bind].
    unfold to_int at 1. rewrite parse_print_Z. cbn [bind]. rewrite LG. cbn [bind skipn].
    rewrite <- (map_map S nat_text), to_ints, map_map. cbn [bind].
    pose proof (take_below _ _ _ _ V T) as V'.
    assert (C : mapM (fun i => zget i (keyed 0 (seq 0 n))) (map (fun x => Z.of_nat (S x)) (snd b)) = Ok (snd b)).
    { clear - V'. induction V' as [|v c B V IH]; [reflexivity|]. cbn [map mapM].
      pose proof (keyed_get 0 (seq 0 n) v v) as K. cbn [Nat.add] in K. unfold pid in K. rewrite K; [cbn [bind]; now rewrite IH|].
      rewrite nth_error_nth' with (d := 0) by (rewrite seq_length; lia). now rewrite seq_nth. }
    rewrite C. cbn [bind]. rewrite push_ucd. rewrite <- TF, <- (surjective_pairing b). do 2 f_equal.
    pose proof (keyed_snoc 0 (seq 0 i) i) as K. rewrite seq_length in K. cbn [Nat.add] in K. unfold pid in K. rewrite L, K.
    change (seq 0 i ++ [i]) with (seq 0 i ++ [0 + i]). now rewrite <- seq_S.
Qed.
Lemma fold_cells n material rows : Forall (fun a => Forall (fun v => v < n) (snd a)) rows -> forall a ls cells mats,
  mapM (ucd_cell material) (combine (seq a (List.length rows)) rows) = Ok ls -> List.length mats = a ->
  exists tcs ms, Forall2 translated_cell rows tcs /\ Forall2 (fun i m => to_whole material i = Ok m) (seq a (List.length rows)) ms /\
    Forall one_line ls /\ List.length ls = List.length rows /\
    foldM (read_ucd_cell (keyed 0 (seq 0 n))) (cells, mats, keyed 0 (seq 0 a)) (map words_of ls) =
    Ok (fold_left push tcs cells, mats ++ ms, keyed 0 (seq 0 (a + List.length rows))).
Proof.
  induction 1 as [|row rows V F IH]; intros a ls cells mats H L; cbn [List.length seq combine mapM] in H.
  - assert (ls = []) as -> by congruence. exists [], []. cbn. rewrite app_nil_r, Nat.add_0_r. split; [constructor|]. split; [constructor|]. split; [constructor|]. split; reflexivity.
  - destruct (ucd_cell material (a, row)) as [l|] eqn:E; [|discriminate H]. cbn [bind] in H.
    destruct (mapM (ucd_cell material) (combine (seq (S a) (List.length rows)) rows)) as [k|] eqn:EK; [|discriminate H]. cbn [bind] in H.
    assert (ls = l :: k) as -> by congruence. apply ucd_cell_ok in E as (b & m & t & TC & M & SH & ->). cbn [fst snd] in TC, M, SH.
    destruct (read_one n (cells, mats, keyed 0 (seq 0 a)) a row b m t _ _ TC V SH L eq_refl eq_refl eq_refl) as (W & RD). cbn [fst snd] in RD.
    destruct (IH (S a) k (push cells b) (mats ++ [m]) EK) as (tcs & ms & T2 & M2 & O & LL & FD); [rewrite app_length; cbn; lia|].
    exists (b :: tcs), (m :: ms). split; [constructor; auto|]. split; [cbn [List.length seq]; constructor; auto|]. split; [|split; [cbn; lia|]].
    + constructor; auto. apply one_word_line. unfold cell_words. constructor; [apply isword_nat|]. constructor; [apply isword_print|]. constructor; [eapply short_long; eauto|].
      apply Forall_map. apply Forall_forall. intros v _. apply isword_nat.
    + cbn [map foldM]. rewrite W, RD. cbn [bind]. rewrite FD. cbn [fold_left List.length]. rewrite <- app_assoc. cbn [app]. do 4 f_equal. lia.
Qed.
(** The rows of a block, reordered *)
Definition rereadable (a b : str * list nat) : Prop := fst a = fst b /\ exists order, assoc (fst a) of_ucd = Ok order /\ List.length (snd a) = List.length order /\ take (snd a) order = Ok (snd b).
Lemma reordered_cells cells : Forall (fun a => exists b, rereadable a b) (flat cells) ->
  merged cells -> exists cells', mapM reordered cells = Ok cells' /\ Forall2 rereadable (flat cells) (flat cells') /\ block_sizes cells' = block_sizes cells /\ map fst cells' = map fst cells.
Proof.
  induction cells as [|[t rows] cells IH]; intros F M; [exists []; split; [reflexivity|]; split; [constructor|split; reflexivity]|].
  unfold flat in F. cbn [flat_map fst snd] in F. apply Forall_app in F as [F1 F2]. cbn [merged] in M. destruct M as (N & _ & M).
  destruct (IH F2 M) as (cells' & E & G & L & T). destruct rows as [|r0 rows0] eqn:ER; [now elim N|]. rewrite <- ER in *.
  assert (A : exists order, assoc t of_ucd = Ok order /\ Forall (fun r => List.length r = List.length order /\ exists b, take r order = Ok b) rows).
  { assert (X : exists b, rereadable (t, r0) b) by (rewrite Forall_forall in F1; apply F1; rewrite ER; now left).
    destruct X as (b & _ & order & O & _). cbn [fst] in O. exists order. split; auto. apply Forall_forall. intros r I.
    rewrite Forall_forall in F1. destruct (F1 (t, r)) as (b' & _ & order' & O' & L' & T'); [now apply in_map|]. cbn [fst snd] in *.
    assert (order' = order) as -> by congruence. split; auto. eauto. }
  destruct A as (order & O & FR).
  assert (X : exists rows', mapM (fun row => take row order) rows = Ok rows' /\ Forall2 rereadable (map (pair t) rows) (map (pair t) rows') /\ List.length rows' = List.length rows).
  { clear - FR O. induction FR as [|r rows (L & b & B) F (rows' & E & F2 & LL)]; [exists []; split; [reflexivity|]; split; [constructor|reflexivity]|].
    exists (b :: rows'). cbn [mapM]. rewrite B. cbn [bind]. rewrite E. cbn [bind]. split; auto. split; [|cbn; lia]. cbn [map]. constructor; auto.
    split; [reflexivity|]. exists order. auto. }
  destruct X as (rows' & E' & G' & L').
  exists ((t, rows') :: cells'). cbn [mapM]. unfold reordered at 1. cbn [fst snd].
  assert (RC : rectangular rows = true).
  { rewrite ER in *. unfold rectangular. inversion_clear FR as [|? ? (L1 & _) FR']. apply forallb_forall. intros q I. rewrite Forall_forall in FR'. destruct (FR' q I) as (L2 & _). rewrite L1, L2. apply Nat.eqb_refl. }
  rewrite RC. cbn [guard bind]. rewrite O. cbn [bind]. rewrite E'. cbn [bind]. rewrite E. cbn [bind]. split; auto. split; [|split].
  - unfold flat. cbn [flat_map fst snd]. apply Forall2_app; auto.
  - unfold block_sizes in *. cbn [map snd]. congruence.
  - cbn [map fst]. congruence.
Qed.
Lemma read_cells_ok n material cells ls r : valid n (flat cells) -> mapM (ucd_cell material) (numbered (all_cells cells)) = Ok ls ->
  exists cells' ms, Forall one_line ls /\ read_cells (n_cells cells) (keyed 0 (seq 0 n)) (ls ++ r) = Ok (keyed 0 (seq 0 (n_cells cells)), cells', ms, r) /\
    Forall2 kept (flat cells) (flat cells') /\ merged cells' /\ Forall2 (fun i m => to_whole material i = Ok m) (seq 0 (n_cells cells)) ms.
Proof.
  intros V H. rewrite flat_all in H. rewrite flat_n. unfold numbered in H.
  destruct (fold_cells n material (flat cells) V 0 ls [] [] H eq_refl) as (tcs & ms & T & M & O & L & FD).
  destruct (push_all tcs []) as (PF & PM). cbn [flat flat_map app] in PF.
  assert (RR : Forall2 (fun a b => exists c, rereadable b c /\ kept a c) (flat cells) tcs).
  { clear - T. induction T as [|a b l l' (TF & order & OA & TA) T IH]; constructor; auto.
    destruct (order_back _ _ _ _ OA TA) as (s & k & back & I & TS & LE & LB & OB & TB). exists (fst a, firstn k (snd a)). split.
    - split; [auto|]. rewrite TF. exists back. split; auto. split; auto.
      apply MaterialProof.mapM_F2 in TB. pose proof (MaterialProof.Forall2_length _ _ _ TB) as E. rewrite E, firstn_length. lia.
    - split; auto. exists s, k. auto. }
  destruct (reordered_cells (fold_left push tcs [])) as (cells' & RO & R2 & RS & RT).
  { rewrite PF. clear - RR. induction RR as [|a b l l' (c & X & _) R IH]; constructor; eauto. }
  { apply PM. exact I. }
  exists cells', ms. split; auto. split; [|split; [|split; auto]].
  - unfold read_cells. rewrite <- L at 1. rewrite each_line_fold. change (@nil (Z * nat)) with (keyed 0 (seq 0 0)). rewrite FD. cbn [bind fst snd]. rewrite RO. cbn [bind Nat.add app].
    reflexivity.
  - rewrite PF in R2. clear - RR R2. revert R2. generalize (flat cells'). induction RR as [|a b l l' (c & (C1 & o & C2 & C3 & C4) & KC) R IH]; intros k R2; inversion R2 as [|? d ? ? (D1 & o' & D2 & D3 & D4) R2']; subst; constructor; auto.
    assert (o' = o) as -> by congruence. assert (snd d = snd c) as E by congruence. destruct c as [c1 c2], d as [d1 d2]. cbn [fst snd] in *. subst. exact KC.
  - apply (merged_same _ _ RS RT). apply PM. exact I.
Qed.

(** ** Data *)
Lemma lstrip_length s : List.length (lstrip s) <= List.length s.
Proof. induction s as [|c s IH]; cbn [lstrip]; auto. destruct (is_space c); cbn [List.length]; lia. Qed.
Lemma strip_fix l : strip l = l -> match l with [] => True | c :: _ => is_space c = false end.
Proof.
  destruct l as [|c l]; auto. intros E. destruct (is_space c) eqn:S; auto. exfalso. apply (f_equal (@List.length _)) in E.
  unfold strip, rstrip in E. cbn [lstrip] in E. rewrite S, rev_length in E. pose proof (lstrip_length (rev (lstrip l))). rewrite rev_length in *.
  pose proof (lstrip_length l). cbn [List.length] in E. lia.
Qed.
Lemma lstrip_head s : match s with [] => True | c :: _ => is_space c = false end -> lstrip s = s.
Proof. destruct s as [|c s]; auto. cbn [lstrip]. now intros ->. Qed.
Definition label_line (l : str) : str := l ++ $", real" ++ [nl].
Lemma split_on_first sep l r : ~ In sep l -> exists ws, split_on sep (l ++ sep :: r) = l :: ws.
Proof.
  intros N. unfold split_on. enough (G : forall cur, exists ws, split_on_aux sep cur (l ++ sep :: r) = (rev cur ++ l) :: ws) by apply (G []).
  induction l as [|c l IH]; intros cur; cbn [app split_on_aux].
  - rewrite Ascii.eqb_refl, app_nil_r. eauto.
  - destruct (Ascii.eqb_spec c sep) as [->|D]; [elim N; now left|]. destruct (IH (fun I => N (or_intror I)) (c :: cur)) as (ws & ->).
    exists ws. cbn [rev]. now rewrite <- app_assoc.
Qed.
Lemma label_read l : plain_label l -> exists ws, split_on ","%char (strip (label_line l)) = l :: ws.
Proof.
  intros (T & _ & C). assert (E : strip (label_line l) = l ++ ","%char :: $" real").
  { unfold strip, label_line. rewrite lstrip_head.
    - unfold rstrip. assert (E : rev (l ++ $", real" ++ [nl]) = nl :: ["l"; "a"; "e"; "r"; " "; ","]%char ++ rev l) by (rewrite !rev_app_distr; reflexivity).
      rewrite E. transitivity (rev (["l"; "a"; "e"; "r"; " "; ","]%char ++ rev l)); [reflexivity|]. rewrite rev_app_distr, rev_involutive. reflexivity.
    - apply strip_fix in T. destruct l as [|c l]; [reflexivity|exact T]. }
  rewrite E. now apply split_on_first.
Qed.
(** The state of the arrays after [k] rows *)
Section Data.
Variable n : nat.
Definition back_rows (d : darray) : list (list flt) := map (map (rnd_e 14)) (rows d).
Definition after (k : nat) (e : str * darray) : str * partial_array :=
  (underscored (fst e), (width (snd e), map Some (firstn k (back_rows (snd e))) ++ repeat None (n - k))).
Lemma assoc_new {B} k (d : list (str * B)) : ~ In k (map fst d) -> assoc k d = Err KeyError.
Proof.
  induction d as [|[k' v] d IH]; intros N; [reflexivity|]. cbn [assoc]. destruct (streqb k k') eqn:E; [apply streqb_eq in E; elim N; now left|].
  apply IH. intros I. apply N. now right.
Qed.
Lemma assoc_mid {B} k (v : B) a b : ~ In k (map fst a) -> assoc k (a ++ (k, v) :: b) = Ok v.
Proof.
  induction a as [|[k' w] a IH]; intros N; cbn [app assoc]; [now rewrite streqb_refl|]. destruct (streqb k k') eqn:E; [apply streqb_eq in E; elim N; now left|].
  apply IH. intros I. apply N. now right.
Qed.
Lemma sset_mid {B} k (v w : B) a b : ~ In k (map fst a) -> sset k v (a ++ (k, w) :: b) = a ++ (k, v) :: b.
Proof.
  induction a as [|[k' x] a IH]; intros N; cbn [app sset]; [now rewrite streqb_refl|]. destruct (streqb k k') eqn:E; [apply streqb_eq in E; elim N; now left|].
  f_equal. apply IH. intros I. apply N. now right.
Qed.
Lemma after_names k data : map fst (map (after k) data) = map (fun e => underscored (fst e)) data.
Proof. rewrite map_map. reflexivity. Qed.
Lemma read_labels_ok r data : Forall (fun e => plain_label (fst e)) data -> forall prev,
  NoDup (map (fun e => underscored (fst e)) (prev ++ data)) ->
  read_labels n (map (fun e => Z.of_nat (width (snd e))) data) (map (fun e => label_line (fst e)) data ++ r) (map (after 0) prev) =
  Ok (map (fun e => (underscored (fst e), width (snd e))) data, map (after 0) (prev ++ data), r).
Proof.
  induction 1 as [|e data P F IH]; intros prev N; cbn [map read_labels app]; [now rewrite app_nil_r|].
  destruct (label_read _ P) as (ws & E). cbn [readline]. rewrite E.
  destruct P as (T & _ & _). rewrite T. change (map (fun c => if Ascii.eqb c sp then "_"%char else c) (fst e)) with (underscored (fst e)).
  destruct (Z.leb_spec 0 (Z.of_nat (width (snd e)))) as [_|B]; [|lia]. cbn [guard bind]. rewrite Nat2Z.id.
  assert (NI : ~ In (underscored (fst e)) (map fst (map (after 0) prev))).
  { rewrite after_names. intros I. rewrite map_app in N. cbn [map] in N. apply NoDup_remove_2 in N. apply N. apply in_or_app. now left. }
  rewrite assoc_new by auto. cbn [bind]. rewrite sset_new by auto.
  assert (Q : map (after 0) prev ++ [(underscored (fst e), (width (snd e), repeat None n))] = map (after 0) (prev ++ [e]))
    by (rewrite map_app; cbn; unfold after; cbn [firstn map app]; now rewrite Nat.sub_0_r).
  match goal with |- context [read_labels n _ _ ?d] => replace d with (map (after 0) (prev ++ [e])) by (symmetry; exact Q) end.
  rewrite IH by (rewrite <- app_assoc; exact N). cbn [bind]. rewrite <- app_assoc. reflexivity.
Qed.
Definition regular_rows (d : darray) : Prop := Forall (fun r => List.length r = width d /\ Forall nonneg_m r) (rows d).
Lemma regular_ok d : regular d -> regular_rows d /\ 0 < width d.
Proof.
  intros R. split; [|destruct d; [cbn; lia|cbn; lia|apply R]]. unfold regular_rows. destruct d as [l|l|w l]; cbn [regular rows width] in *.
  - apply Forall_map. eapply Forall_impl; [|exact R]. intros z B. cbn beta. split; [reflexivity|]. constructor; [|constructor].
    destruct (Z.eq_dec z 0) as [->|NZ]; [cbn; lia|]. destruct (flt_of_Z_spec z B NZ) as (m & e & -> & M & _). cbn. lia.
  - apply Forall_map. eapply Forall_impl; [|exact R]. intros x B. cbn beta. split; [reflexivity|]. constructor; [|constructor]. now apply is_f64_nonneg.
  - eapply Forall_impl; [|apply R]. intros x (A & B). split; auto. eapply Forall_impl; [|exact B]. apply is_f64_nonneg.
Qed.
Lemma to_flts l : Forall nonneg_m l -> mapM to_flt (map (fmt_e 14) l) = Ok (map (rnd_e 14) l).
Proof.
  induction 1 as [|x l X F IH]; [reflexivity|]. cbn [map mapM]. unfold to_flt at 1. rewrite parse_fmt_e by auto. cbn [bind]. now rewrite IH.
Qed.
Lemma set_nth_app {A} (a : list A) x b y i : List.length a = i -> set_nth i y (a ++ x :: b) = a ++ y :: b.
Proof. intros <-. induction a as [|z a IH]; [reflexivity|]. cbn [List.length app set_nth]. now rewrite IH. Qed.
Lemma after_step k e row : k < n -> List.length (rows (snd e)) = n -> nth_error (rows (snd e)) k = Some row ->
  set_nth k (Some (map (rnd_e 14) row)) (snd (snd (after k e))) = snd (snd (after (S k) e)).
Proof.
  intros K L H. unfold after. cbn [snd]. replace (n - k) with (S (n - S k)) by lia. cbn [repeat].
  assert (LB : List.length (map (@Some (list flt)) (firstn k (back_rows (snd e)))) = k) by (rewrite map_length, firstn_length; unfold back_rows; rewrite map_length; lia).
  rewrite set_nth_app by exact LB. change (Some (map (rnd_e 14) row) :: repeat None (n - S k)) with ([Some (map (rnd_e 14) row)] ++ repeat None (n - S k)).
  rewrite app_assoc. f_equal. change [Some (map (rnd_e 14) row)] with (map (@Some (list flt)) [map (rnd_e 14) row]). rewrite <- map_app. f_equal.
  assert (HB : nth_error (back_rows (snd e)) k = Some (map (rnd_e 14) row)) by (unfold back_rows; erewrite map_nth_error by exact H; reflexivity).
  clear - HB. revert k HB. induction (back_rows (snd e)) as [|x l IH]; intros [|k] H; try discriminate; cbn in *; [congruence|]. now rewrite IH.
Qed.
Lemma read_values_ok k pre todo : k < n -> Forall (fun e => regular_rows (snd e) /\ 0 < width (snd e) /\ List.length (rows (snd e)) = n) todo -> forall j done rowsk,
  Forall2 (fun e row => nth_error (rows (snd e)) k = Some row) todo rowsk ->
  List.length pre = j + 1 -> NoDup (map (fun e => underscored (fst e)) (done ++ todo)) ->
  forall line, line = pre ++ map (fmt_e 14) (concat rowsk) ->
  read_values line k j (map (fun e => (underscored (fst e), width (snd e))) todo) (map (after (S k)) done ++ map (after k) todo) =
  Ok (map (after (S k)) (done ++ todo)).
Proof.
  intros K. revert pre. induction todo as [|e todo IH]; intros pre F j done rowsk R L N line ->.
  - cbn. now rewrite !app_nil_r.
  - inversion R as [|? row ? rowsk' RE R']; subst. inversion_clear F as [|? ? (RR & W & LE) F'].
    assert (RW : List.length row = width (snd e) /\ Forall nonneg_m row). { unfold regular_rows in RR. rewrite Forall_forall in RR. apply RR. eapply nth_error_In; eauto. }
    destruct RW as (RL & RN). cbn [map read_values].
    assert (NI : ~ In (underscored (fst e)) (map fst (map (after (S k)) done))).
    { rewrite after_names. intros I. rewrite map_app in N. cbn [map] in N. apply NoDup_remove_2 in N. apply N. apply in_or_app. now left. }
    assert (ASS : assoc (underscored (fst e)) (map (after (S k)) done ++ map (after k) (e :: todo)) = Ok (snd (after k e))).
    { cbn [map]. unfold after at 2. rewrite assoc_mid by auto. reflexivity. }
    cbn [concat]. rewrite map_app.
    assert (VALS : (if width (snd e) =? 1 then let* s := item (pre ++ map (fmt_e 14) row ++ map (fmt_e 14) (concat rowsk')) (j + 1) in let* x := to_flt s in Ok [x]
        else let* xs := mapM to_flt (firstn (width (snd e)) (skipn (j + 1) (pre ++ map (fmt_e 14) row ++ map (fmt_e 14) (concat rowsk')))) in
          match xs with [x] => Ok (repeat x (width (snd e))) | _ => let* _ := guard (List.length xs =? width (snd e)) ValueError in Ok xs end) = Ok (map (rnd_e 14) row)).
    { destruct (Nat.eqb_spec (width (snd e)) 1) as [W1|W1].
      - rewrite W1 in RL. destruct row as [|x1 [|? ?]]; try discriminate RL. assert (X : nonneg_m x1) by (inversion RN; assumption). unfold item. rewrite nth_error_app2 by lia.
        rewrite L, Nat.sub_diag. cbn [map app nth_error bind]. unfold to_flt. rewrite parse_fmt_e by auto. reflexivity.
      - rewrite skipn_app, <- L, skipn_all, Nat.sub_diag. cbn [app skipn]. rewrite firstn_app, map_length, RL, Nat.sub_diag. cbn [firstn]. rewrite app_nil_r.
        rewrite firstn_all2 by (rewrite map_length; lia). rewrite to_flts by auto. cbn [bind].
        destruct row as [|x1 [|y1 row]]; [cbn in RL; lia|cbn in RL; lia|]. cbn [map]. rewrite <- RL. cbn [List.length]. rewrite map_length, Nat.eqb_refl. reflexivity. }
    match goal with |- bind ?v _ = _ => assert (EV : v = Ok (map (rnd_e 14) row)) by exact VALS end. rewrite EV. clear EV. cbn [bind].
    match goal with |- bind ?v _ = _ => assert (EV : v = Ok (snd (after k e))) by exact ASS end. rewrite EV. clear EV. cbn [bind].
    match goal with |- read_values ?l _ _ _ (sset _ _ ?d) = _ =>
      assert (ES : sset (underscored (fst e)) (fst (snd (after k e)), set_nth k (Some (map (rnd_e 14) row)) (snd (snd (after k e)))) d = map (after (S k)) (done ++ [e]) ++ map (after k) todo) end.
    { rewrite after_step by auto. unfold after at 4. cbn [map]. rewrite sset_mid by auto. rewrite map_app, <- app_assoc. cbn [map app]. f_equal. }
    rewrite ES.
    rewrite (IH (pre ++ map (fmt_e 14) row) F' (j + width (snd e)) (done ++ [e]) rowsk' R').
    + now rewrite <- app_assoc.
    + rewrite app_length, map_length. lia.
    + now rewrite <- app_assoc.
    + now rewrite <- app_assoc.
Qed.
Lemma stack_ok ds : forall acc array, foldM stack acc ds = Ok array -> List.length acc = n ->
  Forall (fun d => List.length (rows d) = n) ds /\ List.length array = n /\
  forall k row0, nth_error acc k = Some row0 -> exists rowsk, Forall2 (fun d row => nth_error (rows d) k = Some row) ds rowsk /\ nth_error array k = Some (row0 ++ concat rowsk).
Proof.
  induction ds as [|d ds IH]; intros acc array H L; cbn [foldM] in H.
  - assert (array = acc) as -> by congruence. split; auto. split; auto. intros k row0 E. exists []. split; auto. cbn. now rewrite app_nil_r.
  - unfold stack at 1 in H. destruct (Nat.eqb_spec (List.length acc) (List.length (rows d))) as [EL|]; [|discriminate H]. cbn [guard bind] in H.
    destruct (IH _ _ H) as (F & LA & X); [rewrite map_length, combine_length; lia|]. split; [constructor; [lia|auto]|]. split; auto.
    intros k row0 E. destruct (nth_error (rows d) k) as [row|] eqn:ER.
    2:{ apply nth_error_None in ER. assert (k < List.length acc) by (apply nth_error_Some; congruence). lia. }
    destruct (X k (row0 ++ row)) as (rowsk & F2 & A).
    { pose proof (CylinderProof.combine_nth_error acc (rows d) k) as C. rewrite E, ER in C. erewrite map_nth_error by exact C. reflexivity. }
    exists (row :: rowsk). split; auto. cbn [concat]. now rewrite app_assoc.
Qed.
Definition row_line (ir : nat * list flt) : str := word_line (nat_text (S (fst ir)) :: map (fmt_e 14) (snd ir)).
Lemma row_words ir : Forall isword (nat_text (S (fst ir)) :: map (fmt_e 14) (snd ir)).
Proof. constructor; [apply isword_nat|]. apply Forall_map. apply Forall_forall. intros x _. split; [apply fmt_e_nonempty|apply clean_no_space, fmt_e_clean]. Qed.
Lemma fold_rows data array : Forall (fun e => regular_rows (snd e) /\ 0 < width (snd e) /\ List.length (rows (snd e)) = n) data ->
  NoDup (map (fun e => underscored (fst e)) data) -> List.length array = n ->
  (forall k, k < n -> exists rowsk, Forall2 (fun e row => nth_error (rows (snd e)) k = Some row) data rowsk /\ nth_error array k = Some (concat rowsk)) ->
  forall m k, k + m = n ->
  foldM (fun st line => let* w := item line 0 in let* i := to_int w in let* eid := zget i (keyed 0 (seq 0 n)) in
      read_values line eid 0 (map (fun e => (underscored (fst e), width (snd e))) data) st)
    (map (after k) data) (map (fun ir => words_of (row_line ir)) (combine (seq k m) (skipn k array))) = Ok (map (after n) data).
Proof.
  intros F N L X. induction m as [|m IH]; intros k K.
  - cbn [seq combine map foldM]. now replace n with k by lia.
  - destruct (X k ltac:(lia)) as (rowsk & F2 & A). cbn [seq].
    assert (SK : skipn k array = concat rowsk :: skipn (S k) array).
    { clear - A. revert k A. induction array as [|x l IH]; intros [|k] H; try discriminate; cbn in *; [congruence|]. now rewrite IH. }
    rewrite SK. cbn [combine map foldM].
    assert (WL : words_of (row_line (k, concat rowsk)) = nat_text (S k) :: map (fmt_e 14) (concat rowsk)) by (apply words_line; [apply (row_words (k, concat rowsk))|discriminate]).
    rewrite !WL. unfold item at 1. cbn [nth_error bind].
    rewrite to_int_nat. cbn [bind].
    pose proof (keyed_get 0 (seq 0 n) k k) as KG. cbn [Nat.add] in KG. unfold pid in KG. rewrite KG by (rewrite nth_error_nth' with (d := 0) by (rewrite seq_length; lia); now rewrite seq_nth by lia).
    cbn [bind].
    pose proof (read_values_ok k [nat_text (S k)] data ltac:(lia) F 0 [] rowsk F2 eq_refl N _ eq_refl) as RV. cbn [map app] in RV.
    match goal with |- bind ?v _ = _ => assert (EV : v = Ok (map (after (S k)) data)) by exact RV end. rewrite EV. cbn [bind]. apply IH. lia.
Qed.
Lemma filled_ok e : regular_rows (snd e) -> List.length (rows (snd e)) = n -> filled (snd (after n e)) = Ok (if width (snd e) =? 1 then Floats (concat (back_rows (snd e))) else Rows (width (snd e)) (back_rows (snd e))).
Proof.
  intros R L. unfold filled, after. cbn [snd fst]. rewrite Nat.sub_diag. cbn [repeat]. rewrite app_nil_r.
  assert (LB : List.length (back_rows (snd e)) = n) by (unfold back_rows; rewrite map_length; exact L).
  rewrite firstn_all2 by lia.
  assert (M : mapM (fun o => match o with Some r => Ok r | None => Err Unmodelled end) (map (@Some (list flt)) (back_rows (snd e))) = Ok (back_rows (snd e))).
  { clear. induction (back_rows (snd e)) as [|x l IH]; [reflexivity|]. cbn [map mapM bind]. now rewrite IH. }
  rewrite M. cbn [bind]. destruct (Nat.eqb_spec (width (snd e)) 1) as [W|W]; [|reflexivity].
  unfold regular_rows, back_rows in *. rewrite W in R. clear - R. induction R as [|r l (RL & _) R IH]; [reflexivity|].
  destruct r as [|x [|? ?]]; try discriminate RL. cbn [map concat mapM app]. unfold item at 1. cbn [nth_error bind].
  destruct (mapM (fun r => item r 0) (map (map (rnd_e 14)) l)) as [xs|]; [|discriminate IH]. cbn [bind] in *. congruence.
Qed.
Lemma same_filled (e : str * darray) : regular_rows (snd e) -> same_data (snd e) (if width (snd e) =? 1 then Floats (concat (back_rows (snd e))) else Rows (width (snd e)) (back_rows (snd e))).
Proof.
  intros R. unfold same_data, back_rows. destruct (snd e) as [l|l|w l]; cbn [width rows Nat.eqb].
  - f_equal. rewrite map_map. clear. induction l as [|z l IH]; [reflexivity|]. cbn [map concat app]. f_equal. exact IH.
  - f_equal. rewrite map_map. clear. induction l as [|z l IH]; [reflexivity|]. cbn [map concat app]. f_equal. exact IH.
  - destruct (w =? 1); [|reflexivity]. f_equal. rewrite concat_map. reflexivity.
Qed.
Lemma read_data_ok data text r : data_text n data = Ok text -> Forall (fun e => plain_label (fst e)) data -> Forall (fun e => regular (snd e)) data ->
  NoDup (map (fun e => underscored (fst e)) data) ->
  exists ls data', text = concat ls /\ Forall one_line ls /\ read_data n (keyed 0 (seq 0 n)) (ls ++ r) = Ok (data', r) /\ Forall2 same_entry data data'.
Proof.
  intros H P R N. unfold data_text in H. destruct (foldM stack (repeat [] n) (map snd data)) as [array|] eqn:E; [|discriminate H]. cbn [bind] in H.
  destruct (stack_ok _ _ _ E (repeat_length _ _)) as (F & L & X).
  set (head := word_line (nat_text (List.length data) :: map (fun e => nat_text (width (snd e))) data)) in *.
  set (labels := map (fun e => label_line (fst e)) data).
  set (lines := map row_line (numbered array)).
  assert (HW : Forall isword (nat_text (List.length data) :: map (fun e => nat_text (width (snd e))) data)) by (constructor; [apply isword_nat|]; apply Forall_map; apply Forall_forall; intros e _; apply isword_nat).
  exists (head :: labels ++ lines).
  assert (T : text = concat (head :: labels ++ lines)).
  { enough (Q : Ok (concat (head :: labels ++ lines)) = Ok text) by congruence. rewrite <- H. cbn [concat]. rewrite concat_app. reflexivity. }
  assert (F' : Forall (fun e => regular_rows (snd e) /\ 0 < width (snd e) /\ List.length (rows (snd e)) = n) data).
  { apply Forall_forall. intros e I. rewrite Forall_forall in R, F. destruct (regular_ok _ (R e I)) as (A & B). split; auto. split; auto. apply F. now apply in_map. }
  eexists. split; [exact T|]. split; [|split].
  - constructor; [apply one_word_line; exact HW|]. apply Forall_app. split.
    + unfold labels. apply Forall_map. eapply Forall_impl; [|exact P]. intros e (_ & NL & _). exists (fst e ++ $", real"). split; [unfold label_line; now rewrite <- app_assoc|].
      rewrite forallb_app. apply andb_true_iff. split; [|reflexivity]. apply forallb_forall. intros c I. destruct (Ascii.eqb_spec c nl) as [->|]; auto.
    + unfold lines. apply Forall_map. apply Forall_forall. intros ir _. apply one_word_line, row_words.
  - unfold read_data. cbn [app readline]. unfold head. rewrite words_line by (exact HW || discriminate). cbn [skipn].
    rewrite <- (map_map (fun e => width (snd e)) nat_text), to_ints, map_map. cbn [bind].
    rewrite <- app_assoc. pose proof (read_labels_ok (lines ++ r) data P [] N) as RL. cbn [map app] in RL. unfold labels. rewrite RL. cbn [bind].
    assert (LL : List.length lines = n) by (unfold lines, numbered; rewrite map_length, combine_length, seq_length; lia).
    rewrite <- LL at 1. rewrite each_line_fold. unfold lines at 1. rewrite map_map. unfold numbered.
    pose proof (fold_rows data array F' N L) as FR. specialize (FR) with (m := n) (k := 0). rewrite L. cbn [skipn] in FR. rewrite FR; auto.
    2:{ intros k K. destruct (X k []) as (rowsk & F2 & A). { rewrite nth_error_nth' with (d := []) by (rewrite repeat_length; lia). now rewrite nth_repeat. }
        exists rowsk. split; [|exact A]. clear - F2. remember (map snd data) as ds eqn:ED. revert data ED. induction F2 as [|d row ds rowsk D F2 IH]; intros [|e data] ED; try discriminate ED; constructor.
        - injection ED as -> _. exact D.
        - apply IH. now injection ED. }
    cbn [bind fst snd].
    assert (MF : mapM (fun e => let* d := filled (snd e) in Ok (fst e, d)) (map (after n) data) =
      Ok (map (fun e => (underscored (fst e), if width (snd e) =? 1 then Floats (concat (back_rows (snd e))) else Rows (width (snd e)) (back_rows (snd e)))) data)).
    { clear - F'. induction F' as [|e data (A & _ & B) F IH]; [reflexivity|]. cbn [map mapM]. rewrite filled_ok by auto. cbn [bind]. rewrite IH. reflexivity. }
    rewrite MF. cbn [bind]. reflexivity.
  - clear - F'. induction F' as [|e data (A & _ & B) F IH]; cbn [map]; constructor; auto. split; [reflexivity|]. now apply same_filled.
Qed.
End Data.

(** ** Pieces of arrays *)
Lemma append_all (K : list flt -> darray) : (forall l k, append (K l) (K k) = Ok (K (l ++ k))) -> forall ls l, foldM append (K l) (map K ls) = Ok (K (l ++ concat ls)).
Proof.
  intros H. induction ls as [|k ls IH]; intros l; cbn [map foldM concat]; [now rewrite app_nil_r|]. rewrite H. cbn [bind]. rewrite IH. now rewrite app_assoc.
Qed.
Lemma append_any {A} (K : list A -> darray) : (forall l k, append (K l) (K k) = Ok (K (l ++ k))) -> forall ls l, foldM append (K l) (map K ls) = Ok (K (l ++ concat ls)).
Proof.
  intros H. induction ls as [|k ls IH]; intros l; cbn [map foldM concat]; [now rewrite app_nil_r|]. rewrite H. cbn [bind]. rewrite IH. now rewrite app_assoc.
Qed.
Lemma conc_split {A} (K : list A -> darray) b at_ (l : list A) : (forall l k, append (K l) (K k) = Ok (K (l ++ k))) -> concatenate (map K (split_from b at_ l)) = Ok (K l).
Proof.
  intros H. pose proof (TimeSeriesProof.split_concat at_ b l) as C. destruct (split_from b at_ l) as [|x ls] eqn:E; [destruct at_; discriminate E|].
  cbn [map concatenate]. rewrite (append_any K H). now rewrite <- C.
Qed.
Lemma append_ints l k : append (Ints l) (Ints k) = Ok (Ints (l ++ k)). Proof. reflexivity. Qed.
Lemma append_floats l k : append (Floats l) (Floats k) = Ok (Floats (l ++ k)). Proof. reflexivity. Qed.
Lemma append_rows w l k : append (Rows w l) (Rows w k) = Ok (Rows w (l ++ k)). Proof. cbn [append]. now rewrite Nat.eqb_refl. Qed.
Definition size (d : darray) : nat := match d with Ints l => List.length l | Floats l => List.length l | Rows _ l => List.length l end.
Lemma split_array_ok cells d ds : split_array cells d = Ok ds -> concatenate ds = Ok d /\ size d = n_cells cells.
Proof.
  assert (X : forall A (K : list A -> darray) l, (forall l k, append (K l) (K k) = Ok (K (l ++ k))) -> (let* ls := split cells l in Ok (map K ls)) = Ok ds -> concatenate ds = Ok (K l) /\ List.length l = n_cells cells).
  { intros A K l H E. unfold split in E. destruct (Nat.eqb_spec (List.length l) (n_cells cells)) as [L|]; [|discriminate E]. cbn [guard bind] in E.
    unfold np_split in E. split; auto. replace ds with (map K (split_from 0 (removelast (cumsum 0 (map (fun c => List.length (snd c)) cells))) l)) by congruence. now apply conc_split. }
  destruct d as [l|l|w l]; cbn [split_array size]; intros H; apply X in H; auto.
  apply append_rows.
Qed.
(** ** Names *)
Lemma is_material_ok k : is_material k = true <-> names_material k.
Proof.
  unfold is_material, names_material, materials, material_names. rewrite existsb_exists. split.
  - intros (x & I & E). apply streqb_eq in E. subst x. destruct I as [<-|[<-|[<-|[<-|[<-|[]]]]]]; eexists; split; try reflexivity; cbn; tauto.
  - intros (s & I & ->). exists $s. split; [|apply streqb_refl]. destruct I as [<-|[<-|[<-|[<-|[<-|[]]]]]]; cbn; tauto.
Qed.
Lemma underscored_plain k l : ~ In "_"%char k -> underscored l = k -> l = k.
Proof.
  intros N <-. unfold underscored in *. induction l as [|c l IH]; [reflexivity|]. cbn [map] in *. destruct (Ascii.eqb_spec c sp) as [->|D]; [elim N; now left|].
  f_equal. apply IH. intros I. apply N. now right.
Qed.
Definition others (cd : list (str * darray)) : list (str * darray) := filter (fun e => negb (is_material (fst e))) cd.
Lemma others_ok cd : other_data cd (others cd).
Proof.
  induction cd as [|[k d] cd IH]; [constructor|]. unfold others. cbn [filter fst]. destruct (is_material k) eqn:E; cbn [negb].
  - constructor; auto. now apply is_material_ok.
  - apply od_other; auto. intros N. apply is_material_ok in N. congruence.
Qed.
Lemma others_only cd l : other_data cd l -> l = others cd.
Proof.
  induction 1 as [|k d cd l N H IH|k d cd l N H IH]; [reflexivity| |]; unfold others in *; cbn [filter fst].
  - apply is_material_ok in N. now rewrite N.
  - destruct (is_material k) eqn:E; [elim N; now apply is_material_ok|]. cbn [negb]. now rewrite IH.
Qed.
Lemma split_all cells cd cds : mapM (fun e : str * darray => let* ds := split_array cells (snd e) in Ok (fst e, ds)) cd = Ok cds ->
  mapM (fun e : str * list darray => let* d := concatenate (snd e) in Ok (fst e, d)) (filter (fun e => negb (is_material (fst e))) cds) = Ok (others cd) /\
  Forall (fun e => size (snd e) = n_cells cells) cd /\
  forall n ms material, n = n_cells cells -> 0 < n -> material_array n cds = Ok material -> Forall2 (fun i m => to_whole material i = Ok m) (seq 0 n) ms -> materials_of n cd ms.
Proof.
  revert cds. induction cd as [|[k d] cd IH]; intros cds H; cbn [mapM] in H.
  - assert (cds = []) as -> by congruence. split; [reflexivity|]. split; [constructor|]. intros n ms material E P M F. cbn in M.
    assert (material = Ints (repeat 0%Z n)) as -> by congruence. assert (ms = repeat 0%Z n) as ->; [|constructor].
    assert (LM := MaterialProof.Forall2_length _ _ _ F). rewrite seq_length in LM. clear - F LM.
    assert (G : forall a k ms, a + k <= n -> Forall2 (fun i m => to_whole (Ints (repeat 0%Z n)) i = Ok m) (seq a k) ms -> ms = repeat 0%Z k).
    { intros a k. revert a. induction k as [|k IH]; intros a ms' B F'; cbn [seq] in F'; inversion F' as [|? m ? ms'' E F'']; subst; [reflexivity|].
      cbn [repeat]. f_equal; [|apply (IH (S a)); auto; lia]. cbn [to_whole] in E. unfold item in E. rewrite nth_error_nth' with (d := 0%Z) in E by (rewrite repeat_length; lia).
      rewrite nth_repeat in E. congruence. }
    apply (G 0 n); auto.
  - cbn [fst snd] in H. destruct (split_array cells d) as [ds|] eqn:E; [|discriminate H]. cbn [bind] in H.
    destruct (mapM _ cd) as [cds'|] eqn:E'; [|discriminate H]. cbn [bind] in H. assert (cds = (k, ds) :: cds') as -> by congruence.
    destruct (IH cds' eq_refl) as (D & S & M). apply split_array_ok in E as (C & SZ). split; [|split].
    + unfold others. cbn [filter fst]. destruct (is_material k); cbn [negb]; auto. cbn [mapM fst snd]. rewrite C. cbn [bind].
      unfold others in D. rewrite D. reflexivity.
    + constructor; auto.
    + intros n ms material EN P MA F. unfold material_array in MA. cbn [find fst] in MA. destruct (is_material k) eqn:EK.
      * cbn [snd] in MA. assert (material = d) as -> by congruence. apply mo_here; [now apply is_material_ok|].
        assert (GG : forall A B (R : A -> B -> Prop) (l : list A) ms', List.length l = n -> Forall2 (fun i m => exists x, nth_error l i = Some x /\ R x m) (seq 0 n) ms' -> Forall2 R l ms').
        { clear. intros A B R l ms' L F. subst n. revert ms' F. assert (G : forall (l pre : list A) ms', Forall2 (fun i m => exists x, nth_error (pre ++ l) i = Some x /\ R x m) (seq (List.length pre) (List.length l)) ms' -> Forall2 R l ms').
          { clear l. induction l as [|x l IH]; intros pre ms' F; cbn [List.length seq] in F; inversion F as [|? m ? ms'' (y & E & Y) F']; subst; constructor.
            - rewrite nth_error_app2 in E by lia. rewrite Nat.sub_diag in E. cbn in E. congruence.
            - apply (IH (pre ++ [x])). rewrite app_length, Nat.add_1_r, <- app_assoc. exact F'. }
          intros ms' F. now apply (G l []). }
        destruct d as [l|l|w l]; cbn [size] in SZ.
        -- assert (ms = l) as ->; [|constructor]. assert (F2 : Forall2 eq l ms).
           { apply (GG _ _ eq); [lia|]. eapply PruneProof.Forall2_impl; [|exact F]. intros i m T. cbn [to_whole] in T. unfold item in T. destruct (nth_error l i) as [x|]; [|discriminate T]. exists x. split; congruence. }
           clear - F2. induction F2; congruence.
        -- constructor. apply (GG _ _ (fun x z => int_of_flt x = Some z)); [lia|]. eapply PruneProof.Forall2_impl; [|exact F]. intros i m T. cbn [to_whole] in T. unfold item in T.
           destruct (nth_error l i) as [x|]; [|discriminate T]. cbn [bind] in T. exists x. split; auto. destruct x as [s0 m0 e0|s0|]; try discriminate T. destruct (int_of_flt (Fin s0 m0 e0)); congruence.
        -- exfalso. destruct n as [|n]; [lia|]. cbn [seq] in F. inversion F as [|? ? ? ? T _]. discriminate T.
      * apply mo_later; [intros N; apply is_material_ok in N; congruence|]. apply (M n ms material); auto.
Qed.
Lemma sset_many {B} (l : list (str * B)) : forall d, NoDup (map fst (d ++ l)) -> fold_left (fun d e => sset (fst e) (snd e) d) l d = d ++ l.
Proof.
  induction l as [|[k v] l IH]; intros d N; cbn [fold_left fst snd]; [now rewrite app_nil_r|].
  rewrite sset_new. 2:{ rewrite map_app in N. cbn [map fst] in N. apply NoDup_remove_2 in N. intros I. apply N. apply in_or_app. now left. }
  rewrite IH by (rewrite <- app_assoc; exact N). now rewrite <- app_assoc.
Qed.

(** ** The whole file *)
Lemma widened_3d p : List.length (widened p) = 3 -> in_3d p (widened p).
Proof. destruct p as [|x [|y [|z [|? ?]]]]; cbn; try discriminate; constructor. Qed.
Lemma widened_f64 p : Forall (fun x => is_f64 x = true) p -> Forall (fun x => is_f64 x = true) (widened p).
Proof.
  intros F. destruct p as [|x [|y [|z p]]]; auto. inversion_clear F as [|? ? A F']. inversion_clear F' as [|? ? B _].
  constructor; auto.
Qed.
Lemma header_read version ns ls : without_newline version -> List.length ns = 4 ->
  let head := [$"# Written by toughio v" ++ version ++ [nl]; word_line (map nat_text (ns ++ [0]))] in
  Forall one_line head /\ exists line, skip_comments (head ++ ls) = (line, ls) /\ mapM to_int (firstn 4 (split_ws line)) = Ok (map Z.of_nat ns).
Proof.
  intros N L head. assert (W : Forall isword (map nat_text (ns ++ [0]))) by (apply Forall_map, Forall_forall; intros; apply isword_nat).
  assert (NE : map nat_text (ns ++ [0]) <> []) by (destruct ns; [discriminate L|discriminate]). split.
  - unfold head. constructor; [|constructor; [now apply one_word_line|constructor]].
    exists ($"# Written by toughio v" ++ version). split; [now rewrite app_assoc|]. rewrite forallb_app. apply andb_true_iff. split; [reflexivity|].
    apply forallb_forall. intros c I. destruct (Ascii.eqb_spec c nl) as [->|]; auto.
  - unfold head. cbn [app skip_comments].
    assert (H1 : exists t, strip ($"# Written by toughio v" ++ version ++ [nl]) = "#"%char :: t) by (apply (head_strip "#"%char); reflexivity).
    destruct H1 as (t & E1). match goal with |- context [strip ?x] => assert (E1' : strip x = "#"%char :: t) by exact E1 end. rewrite E1'. rewrite Ascii.eqb_refl.
    cbn [skip_comments].
    assert (H2 : exists c u, strip (word_line (map nat_text (ns ++ [0]))) = c :: u /\ c <> "#"%char).
    { destruct ns as [|n0 ns0]; [discriminate L|]. cbn [map app]. unfold word_line.
      assert (DG : exists c u, nat_text n0 = c :: u /\ is_digit c = true).
      { unfold nat_text, print_Z. destruct (Z.ltb_spec (Z.of_nat n0) 0) as [B|_]; [lia|]. pose proof (digits_all (Z.of_nat n0)) as A. pose proof (nonempty_digits (Z.of_nat n0)) as B.
        destruct (digits (Z.of_nat n0)) as [|c u]; [discriminate B|]. cbn in A. apply andb_true_iff in A as [A _]. eauto. }
      destruct DG as (c & u & E & D).
      assert (J : exists v, join [sp] (nat_text n0 :: map nat_text (ns0 ++ [0])) ++ [nl] = c :: v).
      { destruct (map nat_text (ns0 ++ [0])) as [|w ws]; cbn [join]; rewrite E; cbn [app]; eauto. }
      destruct J as (v & ->). destruct (head_strip c v) as (t' & E').
      { pose proof (isword_nat n0) as (_ & S). rewrite E in S. unfold no_space_str in S. cbn [forallb] in S. apply andb_true_iff in S as [S _]. now apply negb_true_iff in S. }
      exists c, t'. split; auto. intros ->. discriminate D. }
    destruct H2 as (c & u & E2 & NC). rewrite E2. destruct (Ascii.eqb_spec c "#"%char) as [->|_]; [now elim NC|]. rewrite <- E2.
    eexists. split; [reflexivity|]. fold (words_of (word_line (map nat_text (ns ++ [0])))). rewrite words_line by auto.
    rewrite firstn_map. replace (firstn 4 (ns ++ [0])) with ns; [apply to_ints|].
    destruct ns as [|n1 [|n2 [|n3 [|n4 [|? ?]]]]]; try discriminate L. reflexivity.
Qed.
Lemma total_0 data : Forall (fun e : str * darray => regular (snd e)) data -> total data = 0 -> data = [].
Proof.
  intros F. destruct F as [|e data R F]; auto. unfold total. cbn [map list_sum]. apply regular_ok in R as (_ & W). cbn. intros E. lia.
Qed.
Lemma read_pdata n data text r : (if total data =? 0 then Ok [] else data_text n data) = Ok text ->
  Forall (fun e => plain_label (fst e)) data -> Forall (fun e => regular (snd e)) data -> NoDup (map (fun e => underscored (fst e)) data) ->
  exists ls data', text = concat ls /\ Forall one_line ls /\ Forall2 same_entry data data' /\
    (if (Z.of_nat (total data) =? 0)%Z then Ok ([], ls ++ r) else read_data n (keyed 0 (seq 0 n)) (ls ++ r)) = Ok (data', r).
Proof.
  intros H P R N. destruct (Nat.eqb_spec (total data) 0) as [E|E].
  - apply total_0 in E; auto. subst data. exists [], []. cbn in *. split; [congruence|]. split; [constructor|]. split; [constructor|reflexivity].
  - destruct (Z.eqb_spec (Z.of_nat (total data)) 0) as [B|_]; [lia|]. destruct (read_data_ok n data text r H P R N) as (ls & data' & A & B & C & D). exists ls, data'. auto.
Qed.
Theorem ucd_round_trip repr version m file others' : write_mesh repr version m = Ok file -> faithful repr -> without_newline version ->
  u_points m <> [] -> (Z.of_nat (List.length (u_points m)) < 2 ^ 53)%Z -> Forall (Forall (fun x => is_f64 x = true)) (u_points m) ->
  flat (u_cells m) <> [] -> valid (List.length (u_points m)) (flat (u_cells m)) -> other_data (u_cell_data m) others' ->
  Forall (fun e => plain_label (fst e) /\ regular (snd e)) (u_point_data m ++ others') ->
  NoDup (map (fun e => underscored (fst e)) (u_point_data m)) -> NoDup (map (fun e => underscored (fst e)) others') ->
  exists c data zs, read_mesh file = Ok c /\ Forall2 in_3d (u_points m) (u_points c) /\
    Forall2 kept (flat (u_cells m)) (flat (u_cells c)) /\ merged (u_cells c) /\
    Forall2 same_entry (u_point_data m) (u_point_data c) /\
    u_cell_data c = data ++ [($"material", Ints zs)] /\ Forall2 same_entry others' data /\ materials_of (List.length (flat (u_cells m))) (u_cell_data m) zs.
Proof.
  intros H RP NV NP NB FP NC V OD FD N1 N2. apply others_only in OD. subst others'.
  apply Forall_app in FD as (FD1 & FD2).
  assert (P1 : Forall (fun e : str * darray => plain_label (fst e)) (u_point_data m)) by (eapply Forall_impl; [|exact FD1]; intros e (X & Y); exact X).
  assert (R1 : Forall (fun e : str * darray => regular (snd e)) (u_point_data m)) by (eapply Forall_impl; [|exact FD1]; intros e (X & Y); exact Y).
  assert (P2 : Forall (fun e : str * darray => plain_label (fst e)) (others (u_cell_data m))) by (eapply Forall_impl; [|exact FD2]; intros e (X & Y); exact X).
  assert (R2 : Forall (fun e : str * darray => regular (snd e)) (others (u_cell_data m))) by (eapply Forall_impl; [|exact FD2]; intros e (X & Y); exact Y).
  unfold write_mesh in H. destruct (mapM _ (u_cell_data m)) as [cds|] eqn:EC in H; [|discriminate H]. cbn [bind] in H.
  apply split_all in EC as (ED & SZ & MAT). unfold write in H. rewrite ED in H. cbn [bind] in H.
  destruct (mapM (node_line repr) (numbered (map widened (u_points m)))) as [nodes|] eqn:EN; [|discriminate H]. cbn [bind] in H.
  destruct (material_array (n_cells (u_cells m)) cds) as [material|] eqn:EM; [|discriminate H]. cbn [bind] in H.
  destruct (mapM (ucd_cell material) (numbered (all_cells (u_cells m)))) as [clines|] eqn:EL; [|discriminate H]. cbn [bind] in H.
  destruct (if total (u_point_data m) =? 0 then Ok [] else data_text (List.length (u_points m)) (u_point_data m)) as [pt|] eqn:EP; [|discriminate H]. cbn [bind] in H.
  destruct (if total (others (u_cell_data m)) =? 0 then Ok [] else data_text (n_cells (u_cells m)) (others (u_cell_data m))) as [ct|] eqn:ECT; [|discriminate H]. cbn [bind] in H.
  set (pts := map widened (u_points m)) in *.
  assert (LP : List.length pts = List.length (u_points m)) by apply map_length.
  assert (FP' : Forall (Forall (fun x => is_f64 x = true)) pts) by (apply Forall_map; eapply Forall_impl; [|exact FP]; apply widened_f64).
  assert (NP' : pts <> []) by (unfold pts; destruct (u_points m); [now elim NP|discriminate]).
  assert (ON : Forall one_line nodes /\ Forall (fun ip => List.length (snd ip) = 3) (numbered pts)).
  { apply mapM_nodes in EN as (L3 & ->). split; auto. apply Forall_map. apply Forall_forall. intros ip I. apply one_word_line, (point_isword repr RP).
    rewrite Forall_forall in FP'. apply FP'. rewrite <- (numbered_snd pts). now apply in_map. }
  destruct ON as (ON & L3).
  destruct (read_pdata (n_cells (u_cells m)) (others (u_cell_data m)) ct [] ECT P2 R2 N2) as (cls & cdata & -> & OC & SC & RC).
  destruct (read_pdata (List.length (u_points m)) (u_point_data m) pt (cls ++ []) EP P1 R1 N1) as (pls & pdata & -> & OP & SP & RPD).
  assert (V' : valid (List.length pts) (flat (u_cells m))) by now rewrite LP.
  destruct (read_cells_ok (List.length pts) material (u_cells m) clines (pls ++ cls ++ []) V' EL) as (cells' & ms & OL & RCE & KE & ME & MM).
  pose proof (read_nodes_ok repr RP pts nodes (clines ++ pls ++ cls ++ []) NP' ltac:(rewrite LP; exact NB) FP' EN) as RN.
  destruct (header_read version [List.length (u_points m); n_cells (u_cells m); total (u_point_data m); total (others (u_cell_data m))] (nodes ++ clines ++ pls ++ cls ++ []) NV eq_refl) as (OH & line & SK & CT).
  set (head := [$"# Written by toughio v" ++ version ++ [nl]; word_line (map nat_text ([List.length (u_points m); n_cells (u_cells m); total (u_point_data m); total (others (u_cell_data m))] ++ [0]))]) in *.
  assert (EF : file = concat (head ++ nodes ++ clines ++ pls ++ cls ++ [])).
  { rewrite !concat_app. cbn [concat]. rewrite app_nil_r. enough (Q : Ok (concat head ++ concat nodes ++ concat clines ++ concat pls ++ concat cls) = Ok file) by congruence.
    rewrite <- H. unfold head. cbn [concat map app]. rewrite app_nil_r, <- !app_assoc. reflexivity. }
  assert (NCP : 0 < n_cells (u_cells m)). { rewrite flat_n. destruct (flat (u_cells m)); [now elim NC|cbn; lia]. }
  assert (NCE : cells' <> []). { intros ->. apply MaterialProof.Forall2_length in KE. cbn in KE. destruct (flat (u_cells m)); [now elim NC|discriminate KE]. }
  exists (Ucd pts cells' pdata (cdata ++ [($"material", Ints ms)])), cdata, ms. cbn [u_points u_cells u_point_data u_cell_data].
  split; [|split; [|split; [exact KE|split; [exact ME|split; [exact SP|split; [reflexivity|split; [exact SC|]]]]]]].
  - unfold read_mesh. rewrite EF, lines_of.
    2:{ apply Forall_app. split; auto. apply Forall_app. split; auto. apply Forall_app. split; auto. apply Forall_app. split; auto. apply Forall_app. split; auto. }
    rewrite SK, CT. cbn [bind map]. unfold sized. rewrite !Nat2Z.id. rewrite <- LP at 1. rewrite RN. cbn [bind]. rewrite RCE. cbn [bind].
    rewrite LP.
    match goal with |- bind ?v _ = _ => assert (EV : v = Ok (pdata, cls ++ [])) by exact RPD end. rewrite EV. clear EV. cbn [bind fst snd].
    match goal with |- bind ?v _ = _ => assert (EV : v = Ok (cdata, [])) by exact RC end. rewrite EV. clear EV. cbn [bind fst snd].
    match goal with |- context [mapM ?f cdata] => assert (CD : mapM f cdata = Ok cdata) end.
    { clear. induction cdata as [|[k d] l IH]; [reflexivity|]. cbn [mapM fst snd].
      assert (X : (let* blocks := match d with Ints l => Ok (map Ints (np_split l (removelast (cumsum 0 (map (fun c => List.length (snd c)) cells')))))
        | Floats l => Ok (map Floats (np_split l (removelast (cumsum 0 (map (fun c => List.length (snd c)) cells')))))
        | Rows w l => Ok (map (Rows w) (np_split l (removelast (cumsum 0 (map (fun c => List.length (snd c)) cells'))))) end in
        let* d0 := concatenate blocks in Ok (k, d0)) = Ok (k, d)).
      { destruct d as [l0|l0|w l0]; cbn [bind]; unfold np_split; rewrite conc_split; try reflexivity. apply append_rows. }
      match goal with |- bind ?v _ = _ => assert (EV : v = Ok (k, d)) by exact X end. rewrite EV. cbn [bind]. rewrite IH. reflexivity. }
    rewrite CD. cbn [bind]. destruct (Nat.eqb_spec (List.length cells') 0) as [E0|_]; [destruct cells'; [now elim NCE|discriminate E0]|]. cbn [negb guard bind].
    assert (NM : forall k, In k (map fst cdata) -> forall s, In s material_names -> k <> $s).
    { intros k I s IS ->. assert (U : ~ In "_"%char $s) by (cbn in IS; destruct IS as [<-|[<-|[<-|[<-|[<-|[]]]]]]; cbn; intuition discriminate).
      apply in_map_iff in I as ([k' d'] & EK & I). cbn [fst] in EK. subst k'.
      assert (X : exists e, In e (others (u_cell_data m)) /\ underscored (fst e) = $s).
      { clear - SC I. induction SC as [|e e' l l' (A & _) S IH]; [destruct I|]. destruct I as [->|I]; [exists e; split; [now left|now rewrite <- A]|]. destruct (IH I) as (x & X & Y). exists x. split; auto. now right. }
      destruct X as (e & IE & UE). apply (underscored_plain _ _ U) in UE. unfold others in IE. apply filter_In in IE as (_ & NE). rewrite UE in NE.
      assert (names_material $s) as M by (exists s; auto). apply is_material_ok in M. rewrite M in NE. discriminate NE. }
    assert (ND : NoDup (map fst cdata)).
    { replace (map fst cdata) with (map (fun e => underscored (fst e)) (others (u_cell_data m))); auto. clear - SC. induction SC as [|e e' l l' (A & _) S IH]; cbn [map]; congruence. }
    rewrite sset_many.
    2:{ cbn [app map fst]. constructor; auto. intros I. apply (NM _ I "avsucd:material"%string); [cbn; tauto|reflexivity]. }
    cbn [app find fst]. change (is_material $"avsucd:material") with true. cbv iota. cbn [bind].
    assert (FL : filter (fun e : str * darray => negb (streqb (fst e) $"avsucd:material")) (($"avsucd:material", Ints ms) :: cdata) = cdata).
    { cbn [filter fst]. rewrite streqb_refl. cbn [negb]. clear - NM. induction cdata as [|[k d] l IH]; [reflexivity|]. cbn [filter fst].
      destruct (streqb k $"avsucd:material") eqn:E; [apply streqb_eq in E; exfalso; apply (NM k) with (s := "avsucd:material"%string); [now left|cbn; tauto|exact E]|]. cbn [negb]. f_equal. apply IH. intros k' I. apply NM. now right. }
    rewrite FL. rewrite sset_new; [reflexivity|]. intros I. apply (NM _ I "material"%string); [cbn; tauto|reflexivity].
  - unfold pts. assert (L3' : Forall (fun p => List.length p = 3) pts) by (rewrite <- (numbered_snd pts); apply Forall_map; exact L3).
    unfold pts in L3'. clear - L3'. induction (u_points m) as [|p l IH]; cbn [map] in *; constructor; inversion_clear L3'; auto. now apply widened_3d.
  - rewrite <- flat_n. apply (MAT _ _ material); auto.
Qed.
