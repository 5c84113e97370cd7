(** Extruding a plane mesh. *)
From Coq Require Import String Ascii Arith ZArith Bool Lia List.
From Verif Require Import Base.Str Model.Py Model.Numpy Model.Mesh Model.MeshOps Spec.MeshCells Spec.Extrude Proofs.DictLemmas Proofs.NumpyProof Proofs.ConnectProof Proofs.BlocksProof Proofs.MaterialProof.
Import ListNotations.
Local Open Scope nat_scope.

Lemma concat_same_length {A} n (ls : list (list A)) : Forall (fun l => List.length l = n) ls -> List.length (concat ls) = List.length ls * n.
Proof. induction 1; cbn [concat List.length]; [reflexivity|]. rewrite app_length, IHForall. lia. Qed.
Lemma concat_nth {A} n (ls : list (list A)) : Forall (fun l => List.length l = n) ls -> forall i r, r < n ->
  nth_error (concat ls) (i * n + r) = match nth_error ls i with Some l => nth_error l r | None => None end.
Proof.
  induction 1 as [|l ls L F IH]; intros i r R; cbn [concat]; [destruct i; destruct (_ + r); reflexivity|]. destruct i as [|i].
  - cbn [Nat.mul Nat.add nth_error]. apply nth_error_app1. lia.
  - cbn [nth_error]. rewrite nth_error_app2 by lia. rewrite <- IH by exact R. f_equal. lia.
Qed.
Lemma nth_lt {A} (l : list A) i x : nth_error l i = Some x -> i < List.length l.
Proof. intros E. apply nth_error_Some. congruence. Qed.
Lemma repeat_same {A} (l : list A) n : Forall (fun l' => List.length l' = List.length l) (repeat l n).
Proof. apply Forall_forall. intros x I. apply repeat_spec in I. now subst. Qed.
Lemma tile_repeats {A} n (l : list A) : repeats n l (tile n l).
Proof.
  unfold tile. split; [rewrite (concat_same_length (List.length l)) by apply repeat_same; now rewrite repeat_length|].
  intros i r x I E. rewrite (concat_nth (List.length l)) by (auto using repeat_same; eauto using nth_lt). rewrite nth_error_repeat; auto.
Qed.
Lemma prisms_ok npts nh rows : List.length (prisms npts nh rows) = nh * List.length rows /\
  forall i r c, i < nh -> nth_error rows r = Some c ->
    nth_error (prisms npts nh rows) (i * List.length rows + r) = Some (map (Nat.add (i * npts)) c ++ map (Nat.add ((i + 1) * npts)) c).
Proof.
  unfold prisms. set (f := fun i => map (fun c => map (Nat.add (i * npts)) c ++ map (Nat.add ((i + 1) * npts)) c) rows).
  assert (F : Forall (fun l => List.length l = List.length rows) (map f (seq 0 nh))).
  { apply Forall_forall. intros x I. apply in_map_iff in I as (i & <- & _). unfold f. apply map_length. }
  split; [rewrite (concat_same_length (List.length rows)) by exact F; now rewrite map_length, seq_length|].
  intros i r c I E. rewrite (concat_nth (List.length rows)) by (eauto using nth_lt). rewrite nth_error_map.
  assert (X : nth_error (seq 0 nh) i = Some i). { rewrite (nth_error_nth' (seq 0 nh) 0); [f_equal; rewrite seq_nth; auto|now rewrite seq_length]. }
  rewrite X. cbn [option_map]. unfold f. rewrite nth_error_map, E. reflexivity.
Qed.

Section Layers.
  Context {C : Type} (add : C -> C -> C) (axis : nat).
  Lemma shift_spec h (p : list C) x : nth_error p axis = Some x ->
    nth_error (shift add axis h p) axis = Some (add x h) /\ List.length (shift add axis h p) = List.length p /\
    forall j, j <> axis -> nth_error (shift add axis h p) j = nth_error p j.
  Proof.
    intros E. unfold shift. rewrite E. repeat split.
    - apply nth_set_same. eauto using nth_lt.
    - apply set_nth_length.
    - intros j N. apply nth_set_other. congruence.
  Qed.
  Definition raised (hs : list C) (l : nat) (p q : list C) : Prop :=
    List.length q = List.length p /\ nth_error q axis = option_map (fun x => level add x hs l) (nth_error p axis) /\
    forall j, j <> axis -> nth_error q j = nth_error p j.
  Lemma layers_spec hs : forall ps, Forall (fun p => axis < List.length p) ps ->
    List.length (ps ++ layers add axis hs ps) = (List.length hs + 1) * List.length ps /\
    forall l p b, l <= List.length hs -> nth_error ps p = Some b ->
      exists q, nth_error (ps ++ layers add axis hs ps) (l * List.length ps + p) = Some q /\ raised hs l b q.
  Proof.
    induction hs as [|h hs IH]; intros ps F; cbn [layers List.length].
    - split; [rewrite app_nil_r; lia|]. intros l p b L E. assert (l = 0) by lia. subst. cbn [Nat.mul Nat.add]. exists b. rewrite app_nil_r. split; [exact E|].
      split; [reflexivity|]. split; [|auto]. unfold level. cbn [firstn fold_left]. destruct (nth_error b axis); reflexivity.
    - set (ps' := map (shift add axis h) ps). assert (LP : List.length ps' = List.length ps) by apply map_length.
      assert (F' : Forall (fun p => axis < List.length p) ps').
      { apply Forall_forall. intros x I. apply in_map_iff in I as (p & <- & I). rewrite Forall_forall in F. specialize (F p I).
        unfold shift. destruct (nth_error p axis); [rewrite set_nth_length|]; auto. }
      destruct (IH ps' F') as [L1 N1]. split; [rewrite app_length, L1, LP; lia|].
      intros [|l] p b L E.
      + exists b. cbn [Nat.mul Nat.add]. split; [rewrite nth_error_app1 by eauto using nth_lt; exact E|]. split; [reflexivity|]. split; [|auto]. unfold level. cbn [firstn fold_left]. destruct (nth_error b axis); reflexivity.
      + destruct (N1 l p (shift add axis h b)) as (q & E1 & R); [lia|unfold ps'; now rewrite nth_error_map, E|].
        exists q. rewrite LP in E1. split; [rewrite nth_error_app2 by lia; rewrite <- E1; f_equal; lia|].
        assert (Fb : axis < List.length b) by (rewrite Forall_forall in F; apply F; eapply nth_error_In; eauto).
        destruct (nth_error b axis) as [x|] eqn:X; [|apply nth_error_None in X; lia].
        destruct (shift_spec h b x X) as (S1 & S2 & S3). destruct R as (R1 & R2 & R3). rewrite S1 in R2. split; [congruence|]. split.
        * rewrite R2, X. reflexivity.
        * intros j N. rewrite R3, S3; auto.
  Qed.
End Layers.

Section Extrude.
  Context {C V : Type} (add : C -> C -> C) (eqb : C -> C -> bool) (zero : C).
  Lemma raised_placed axis hs l x y q : axis < 3 -> raised add axis hs l (placed axis x y zero) q -> q = placed axis x y (level add zero hs l).
  Proof.
    intros A (L & N & R).
    assert (L3 : List.length q = 3) by (rewrite L; destruct axis as [|[|[|]]]; reflexivity).
    destruct q as [|a [|b [|c [|]]]]; try discriminate.
    destruct axis as [|[|[|]]]; [| | |lia]; cbn [placed nth_error option_map] in *; injection N as ->;
      pose proof (R 0) as R0; pose proof (R 1) as R1; pose proof (R 2) as R2; cbn [nth_error] in R0, R1, R2.
    - assert (E1 : Some b = Some y) by (apply R1; lia). assert (E2 : Some c = Some x) by (apply R2; lia). congruence.
    - assert (E1 : Some a = Some x) by (apply R0; lia). assert (E2 : Some c = Some y) by (apply R2; lia). congruence.
    - assert (E1 : Some a = Some x) by (apply R0; lia). assert (E2 : Some b = Some y) by (apply R1; lia). congruence.
  Qed.
  Lemma extruded_type_some t : t = $"triangle" \/ t = $"quad" -> exists t', extruded_type t = Some t' /\ prism t t'.
  Proof. intros [-> | ->]; eexists; (split; [reflexivity|constructor]). Qed.

  Lemma blocks_over npts nh cs : plane cs ->
    Forall2 (prisms_over npts nh) cs (flat_map (fun b => match extruded_type (fst b) with Some t => [(t, prisms npts nh (snd b))] | None => [] end) cs).
  Proof.
    induction 1 as [|b cs H F IH]; cbn [flat_map]; [constructor|]. destruct (extruded_type_some _ H) as (t & E & P). rewrite E. cbn [app]. constructor; [|exact IH].
    split; [exact P|]. cbn [snd]. apply prisms_ok.
  Qed.
  Lemma data_over nh (cs : list cellblock) : plane cs -> forall ps : list (list V), List.length ps = List.length cs ->
    Forall2 (repeats nh) ps (map (fun bp : cellblock * list V => match extruded_type (fst (fst bp)) with Some _ => tile nh (snd bp) | None => snd bp end) (combine cs ps)).
  Proof.
    induction 1 as [|b cs H F IH]; intros [|p ps] L; try discriminate; cbn [combine map]; constructor; [|apply IH; cbn [List.length] in L; lia].
    destruct (extruded_type_some _ H) as (t & E & _). cbn [fst snd]. rewrite E. apply tile_repeats.
  Qed.

  Lemma sizes_over npts nh cs cs' : Forall2 (prisms_over npts nh) cs cs' -> forall ps ps' : list (list V), Forall2 (repeats nh) ps ps' ->
    map (@List.length V) ps = sizes cs -> map (@List.length V) ps' = sizes cs'.
  Proof.
    unfold sizes. induction 1 as [|b b' bs bs' (_ & B1 & _) B IHB]; intros ps ps' R S0.
    - destruct ps; [|discriminate]. inversion R; subst. reflexivity.
    - destruct ps as [|p ps]; [discriminate|]. inversion R; subst. destruct H1 as [RL _]. cbn [map] in *. injection S0 as S1 S2. rewrite RL, B1, S1. f_equal. eapply IHB; eauto.
  Qed.
  Theorem extrude_ok heights axis (m m' : mesh C V) : extrude add eqb zero heights axis m = Ok m' ->
    cells m <> [] -> plane (cells m) -> Forall (fun p => List.length p = dim m) (points m) ->
    let npts := List.length (points m) in let nh := List.length heights in
    axis < 3 /\ dim m' = 3 /\ List.length (points m') = (nh + 1) * npts /\
    (forall l p b, l <= nh -> nth_error (points m) p = Some b ->
       exists q, nth_error (points m') (l * npts + p) = Some q /\
         ((exists x y, b = [x; y] /\ q = placed axis x y (level add zero heights l)) \/
          (exists h, nth_error b axis = Some h /\ nth_error q axis = Some (level add h heights l) /\ List.length b = 3 /\ List.length q = 3 /\
             forall j, j <> axis -> nth_error q j = nth_error b j))) /\
    Forall2 (prisms_over npts nh) (cells m) (cells m') /\
    Forall2 (fun kv kv' => fst kv' = fst kv /\ repeats (nh + 1) (snd kv) (snd kv')) (point_data m) (point_data m') /\
    Forall2 (fun kv kv' => fst kv' = fst kv /\ exists ps ps', concat ps = snd kv /\ map (@List.length V) ps = sizes (cells m) /\
      concat ps' = snd kv' /\ map (@List.length V) ps' = sizes (cells m') /\ Forall2 (repeats nh) ps ps') (cell_data m) (cell_data m') /\
    Forall2 (fun kv kv' => fst kv' = fst kv /\ snd kv' = (fst (snd kv), 3%Z)) (field_data m) (field_data m').
  Proof.
    intros E NE PL F npts nh. unfold extrude in E. destruct (Nat.ltb_spec axis 3) as [A|]; [|discriminate]. cbn [guard bind] in E.
    destruct (lift eqb zero axis (dim m) (points m)) as [pts|] eqn:LI; [|discriminate]. cbn [bind] in E.
    destruct (mapM _ (cell_data m)) as [pieces|] eqn:PI; [|discriminate]. cbn [bind] in E. injection E as <-. cbn [dim points cells point_data cell_data field_data].
    fold npts. fold nh.
    assert (LB : Forall2 (fun b q => (exists x y, b = [x; y] /\ q = placed axis x y zero) \/ (List.length b = 3 /\ q = b)) (points m) pts /\ Forall (fun p => axis < List.length p) pts).
    { unfold lift in LI. destruct (Nat.eqb_spec (dim m) 3) as [D|D].
      - destruct (mapM _ (points m)) as [col|]; [|discriminate]. cbn [bind] in LI. destruct col as [|x col]; [discriminate|]. destruct (forallb (eqb x) col); [|discriminate].
        injection LI as <-. rewrite D in F. split; [clear -F; induction F; constructor; auto|]. eapply Forall_impl; [|exact F]. cbn beta. intros; lia.
      - destruct (Nat.eqb_spec (dim m) 2) as [D2|]; [|discriminate]. rewrite D2 in F. injection LI as <-.
        assert (G : Forall2 (fun b q => exists x y, b = [x; y] /\ q = placed axis x y zero) (points m)
          (if axis =? 2 then map (fun p => p ++ [zero]) (points m) else map (swap axis 2) (map (fun p => p ++ [zero]) (points m)))).
        { clear -F A. induction F as [|p ps L F IH]; [destruct (axis =? 2); constructor|]. destruct p as [|x [|y [|]]]; try discriminate.
          destruct axis as [|[|[|]]]; [| | |lia]; cbn [Nat.eqb map] in *; (constructor; [exists x, y; split; [reflexivity|reflexivity]|exact IH]). }
        split; [clear -G; induction G; constructor; auto|]. clear -G A. induction G as [|? ? ? ? (x & y & _ & ->) G IH]; constructor; [|exact IH].
        destruct axis as [|[|[|]]]; cbn [placed List.length]; lia. }
    destruct LB as [LB FA]. assert (LN : List.length pts = npts) by (symmetry; eapply Forall2_length; exact LB).
    destruct (layers_spec add axis heights pts FA) as [L1 L2]. rewrite LN in L1. fold nh in L1.
    split; [exact A|]. split; [reflexivity|]. split; [exact L1|]. split; [|split; [|split; [|split]]].
    - intros l p b L Eb. assert (X : exists q, nth_error pts p = Some q /\ ((exists x y, b = [x; y] /\ q = placed axis x y zero) \/ (List.length b = 3 /\ q = b))).
      { clear -LB Eb. revert p Eb. induction LB as [|b0 q0 bs qs H LB IH]; intros [|p] Eb; try discriminate; cbn [nth_error] in *; [injection Eb as ->; eauto|]. now apply IH. }
      destruct X as (q0 & E0 & X). destruct (L2 l p q0 L E0) as (q & E1 & R). rewrite LN in E1. exists q. split; [exact E1|].
      destruct X as [(x & y & -> & ->) | (L3 & ->)].
      + left. exists x, y. split; [reflexivity|]. now apply raised_placed.
      + right. destruct R as (R1 & R2 & R3). destruct (nth_error b axis) as [h|] eqn:H; [|apply nth_error_None in H; lia]. exists h. repeat split; auto. congruence.
    - apply blocks_over. exact PL.
    - generalize (point_data m). intros pd. induction pd as [|kv pd IH]; cbn [map]; constructor; [|exact IH]. cbn [fst snd]. split; [reflexivity|apply tile_repeats].
    - apply mapM_F2 in PI. remember (cell_data m) as cd eqn:Ecd. clear Ecd. induction PI as [|kv kp cd pieces H PI IH]; cbn [map]; constructor; [|exact IH].
      destruct (split (cells m) (snd kv)) as [ps|] eqn:SP; [|discriminate]. cbn [bind] in H. injection H as <-. cbn [fst snd]. split; [reflexivity|].
      destruct (Nat.eq_dec (List.length (snd kv)) (n_cells (cells m))) as [LC|LC]; [|rewrite split_refused in SP by exact LC; discriminate].
      destruct (split_ok _ _ NE LC) as (ps0 & E0 & C0 & S0). rewrite E0 in SP. injection SP as ->.
      assert (LL : List.length ps = List.length (cells m)). { apply (f_equal (@List.length nat)) in S0. unfold sizes in S0. now rewrite !map_length in S0. }
      pose proof (data_over nh (cells m) PL ps LL) as R. pose proof (blocks_over npts nh (cells m) PL) as B. eexists ps, _. split; [exact C0|]. split; [exact S0|]. split; [reflexivity|]. split; [|exact R].
      exact (sizes_over npts nh _ _ B _ _ R S0).
    - generalize (field_data m). intros fd. induction fd as [|kv fd IH]; cbn [map]; constructor; [|exact IH]. split; reflexivity.
  Qed.

  Theorem extrude_total heights axis (m : mesh C V) : axis < 3 -> dim m = 2 -> cells m <> [] ->
    Forall (fun kv => List.length (snd kv) = n_cells (cells m)) (cell_data m) -> exists m', extrude add eqb zero heights axis m = Ok m'.
  Proof.
    intros A D NE F. unfold extrude. apply Nat.ltb_lt in A. rewrite A. cbn [guard bind]. unfold lift. rewrite D. cbn [Nat.eqb bind].
    destruct (mapM_total (fun kv : str * list V => let* ps := split (cells m) (snd kv) in Ok (fst kv, ps)) (cell_data m)) as (l & E); [|rewrite E; cbn [bind]; eauto].
    intros kv I. rewrite Forall_forall in F. destruct (split_ok _ _ NE (F kv I)) as (ps & E & _). rewrite E. cbn [bind]. eauto.
  Qed.
End Extrude.
