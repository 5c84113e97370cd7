(** Reading AVS-UCD files of other programs. *)
From Coq Require Import String Ascii Arith ZArith Bool Permutation Lia List.
From Verif Require Import Base.Str Base.Digits Base.Flt Base.FltInt Model.Py Model.Numpy Model.Mesh Model.F3grid Model.Avsucd
  Spec.MeshCells Spec.F3grid Spec.Avsucd Spec.Ucd Proofs.F3Build Proofs.F3Finish Proofs.AvsucdProof Spec.UcdFile.
From Verif Require Proofs.NumpyProof Proofs.MaterialProof.
Import ListNotations.
Local Open Scope nat_scope.

(** ** Numbers and dictionaries *)
Lemma list_ext {A} (l k : list A) : List.length l = List.length k -> (forall i, i < List.length l -> nth_error l i = nth_error k i) -> l = k.
Proof.
  revert k. induction l as [|x l IH]; intros [|y k] L H; try discriminate L; auto. pose proof (H 0 ltac:(cbn; lia)) as E. cbn in E.
  f_equal; [congruence|]. apply IH; [cbn in L; lia|]. intros i I. apply (H (S i)). cbn. lia.
Qed.
Lemma reals_ok ws xs : reals ws xs -> mapM to_flt ws = Ok xs.
Proof. induction 1 as [|w x ws xs E F IH]; [reflexivity|]. cbn [mapM]. unfold to_flt at 1. rewrite E. cbn [bind]. now rewrite IH. Qed.
Lemma counts_ok ws ns : counts ws ns -> mapM to_int ws = Ok (map Z.of_nat ns).
Proof. induction 1 as [|w x ws xs E F IH]; [reflexivity|]. cbn [mapM]. unfold to_int at 1. rewrite E. cbn [bind map]. now rewrite IH. Qed.
Lemma zset_fresh {B} k (v : B) d : ~ In k (map fst d) -> zset k v d = d ++ [(k, v)].
Proof.
  induction d as [|[k' v'] d IH]; intros N; cbn [zset app]; auto. destruct (Z.eqb_spec k k') as [->|D]; [elim N; now left|].
  f_equal. apply IH. intros I. apply N. now right.
Qed.
(** numbers and places *)
Definition places (a : nat) (zs : list Z) : list (Z * nat) := combine zs (seq a (List.length zs)).
Lemma places_fst zs : forall a, map fst (places a zs) = zs.
Proof. unfold places. induction zs as [|z zs IH]; intros a; cbn; auto. now rewrite IH. Qed.
Lemma places_snoc zs z : forall a, places a (zs ++ [z]) = places a zs ++ [(z, a + List.length zs)].
Proof.
  unfold places. induction zs as [|y zs IH]; intros a; cbn [app List.length seq combine]; [now rewrite Nat.add_0_r|]. rewrite IH. cbn [app].
  do 3 f_equal. f_equal. lia.
Qed.
Lemma places_set zs z : NoDup (zs ++ [z]) -> zset z (List.length zs) (places 0 zs) = places 0 (zs ++ [z]).
Proof.
  intros N. rewrite places_snoc. cbn [Nat.add]. apply zset_fresh. rewrite places_fst. apply NoDup_remove_2 in N. now rewrite app_nil_r in N.
Qed.
Lemma places_get zs i z : NoDup zs -> nth_error zs i = Some z -> zget z (places 0 zs) = Ok i.
Proof.
  intros N. enough (G : forall i a, nth_error zs i = Some z -> zget z (places a zs) = Ok (a + i)) by apply (G i 0).
  clear i. unfold places. induction N as [|y zs I N IH]; intros i a E; destruct i as [|i]; try discriminate E; cbn [List.length seq combine zget].
  - cbn in E. assert (y = z) as -> by congruence. now rewrite Z.eqb_refl, Nat.add_0_r.
  - cbn in E. destruct (Z.eqb_spec z y) as [->|D]; [elim I; eapply nth_error_In; eauto|]. rewrite (IH i) by auto. f_equal. lia.
Qed.
Lemma places_all zs : NoDup zs -> fold_left (fun d ip => zset (snd ip) (fst ip) d) (numbered zs) [] = places 0 zs.
Proof.
  intros N. unfold numbered. enough (G : forall l pre, NoDup (pre ++ l) ->
    fold_left (fun d ip => zset (snd ip) (fst ip) d) (combine (seq (List.length pre) (List.length l)) l) (places 0 pre) = places 0 (pre ++ l)) by apply (G zs [] N).
  clear. induction l as [|z l IH]; intros pre N; cbn [List.length seq combine fold_left]; [now rewrite app_nil_r|]. cbn [fst snd].
  assert (E : pre ++ z :: l = (pre ++ [z]) ++ l) by now rewrite <- app_assoc. rewrite E in *. rewrite places_set.
  - replace (S (List.length pre)) with (List.length (pre ++ [z])) by (rewrite app_length; cbn; lia). now apply IH.
  - rewrite map_id || idtac. clear - N. induction l as [|y l IH] using rev_ind; [now rewrite app_nil_r in N|]. apply IH. rewrite app_assoc in N. apply NoDup_remove_1 in N. now rewrite app_nil_r in N.
Qed.

(** ** Nodes *)
Lemma int_fin x z : int_of_flt x = Some z -> whole x = Ok z.
Proof. intros E. unfold whole. destruct x; [now rewrite E|discriminate E|discriminate E]. Qed.
Lemma read_nodes_file nodes ls r d : nodes <> [] -> NoDup (map fst nodes) -> Forall (fun n => List.length (snd n) = d) nodes -> Forall2 node_line nodes ls ->
  read_nodes (List.length nodes) (ls ++ r) = Ok (places 0 (map fst nodes), map snd nodes, r).
Proof.
  intros NE N D F. assert (LL : List.length nodes = List.length ls) by exact (MaterialProof.Forall2_length _ _ _ F). unfold read_nodes. rewrite LL, each_line_fold.
  assert (X : exists heads, Forall2 (fun x n => int_of_flt x = Some (fst n)) heads nodes /\
    forall acc, foldM (fun data ws => let* xs := mapM to_flt ws in Ok (data ++ [xs])) acc (map words_of ls) = Ok (acc ++ map (fun xn => fst xn :: snd (snd xn)) (combine heads nodes))).
  { clear - F. induction F as [|n l nodes ls (w & ws & x & S & W & I & R) F (heads & H & E)]; [exists []; split; [constructor|]; intros acc; cbn; now rewrite app_nil_r|].
    exists (x :: heads). split; [constructor; auto|]. intros acc. cbn [map foldM combine]. rewrite words_of_split, S. cbn [mapM]. unfold to_flt at 1. rewrite W. cbn [bind].
    rewrite (reals_ok _ _ R). cbn [bind]. rewrite E, <- app_assoc. reflexivity. }
  destruct X as (heads & H & E). rewrite E. cbn [bind fst snd app].
  set (data := map (fun xn => fst xn :: snd (snd xn)) (combine heads nodes)).
  assert (L : List.length heads = List.length nodes) by exact (MaterialProof.Forall2_length _ _ _ H).
  assert (DF : Forall (fun p => List.length p = S d) data).
  { unfold data. clear - D H. induction H as [|x n hs ns I H IH]; [constructor|]. inversion_clear D as [|? ? A D']. cbn [combine map]. constructor; auto. cbn [fst snd List.length]. congruence. }
  assert (RC : rectangular data = true).
  { unfold rectangular. destruct data as [|p q]; auto. inversion_clear DF as [|? ? A B]. apply forallb_forall. intros z I. rewrite Forall_forall in B. rewrite (B z I), A. apply Nat.eqb_refl. }
  rewrite RC. cbn [guard bind]. rewrite <- LL. destruct (Nat.eqb_spec (List.length nodes) 0) as [Z|_]; [destruct nodes; [now elim NE|discriminate Z]|].
  cbn [negb guard bind].
  assert (HD : mapM (fun p => item p 0) data = Ok heads).
  { unfold data. clear - H. induction H as [|x n hs ns I H IH]; [reflexivity|]. cbn [combine map mapM]. unfold item at 1. cbn [fst snd nth_error bind]. now rewrite IH. }
  rewrite HD. cbn [bind].
  assert (WH : mapM whole heads = Ok (map fst nodes)).
  { clear - H. induction H as [|x n hs ns I H IH]; [reflexivity|]. cbn [mapM map]. rewrite (int_fin _ _ I). cbn [bind]. now rewrite IH. }
  rewrite WH. cbn [bind]. rewrite places_all by auto. do 3 f_equal.
  unfold data. clear - H. induction H as [|x n hs ns I H IH]; [reflexivity|]. cbn [combine map skipn fst snd]. f_equal. exact IH.
Qed.

(** ** Cells *)
Lemma in_ucd_read t vs w ws : in_ucd t vs w ws -> List.length ws = List.length vs ->
  assoc w long_types = Ok t /\ rereadable (t, ws) (t, vs).
Proof.
  destruct 1; cbn [List.length]; intros L; (destruct r; [|cbn in L; discriminate L]);
    (split; [reflexivity|]; split; [reflexivity|]; eexists; split; [reflexivity|]; split; reflexivity).
Qed.
Definition in_mesh (c : cell) : str * list nat := (c_type c, c_nodes c).
Lemma fold_cells_file nodes : NoDup (map fst nodes) -> forall cells ls, Forall2 (cell_line nodes) cells ls -> forall done blocks mats,
  NoDup (done ++ map c_number cells) -> List.length done = List.length mats ->
  exists tcs, Forall2 rereadable tcs (map in_mesh cells) /\
    foldM (read_ucd_cell (places 0 (map fst nodes))) (blocks, mats, places 0 done) (map words_of ls) =
    Ok (fold_left push tcs blocks, mats ++ map c_material cells, places 0 (done ++ map c_number cells)).
Proof.
  intros N cells ls F. induction F as [|c l cells ls (wi & wm & wt & ws & vs & S & WI & WM & U & LV & V) F IH]; intros done blocks mats ND L.
  - exists []. split; [constructor|]. cbn. now rewrite !app_nil_r.
  - destruct (in_ucd_read _ _ _ _ U LV) as (A & RR).
    assert (EA : done ++ map c_number (c :: cells) = (done ++ [c_number c]) ++ map c_number cells) by (cbn [map]; now rewrite <- app_assoc).
    rewrite EA in ND. destruct (IH (done ++ [c_number c]) (push blocks (c_type c, vs)) (mats ++ [c_material c]) ND) as (tcs & T & E); [rewrite !app_length; cbn; lia|].
    exists ((c_type c, vs) :: tcs). split; [cbn [map]; constructor; auto|]. cbn [map foldM]. rewrite words_of_split, S. unfold read_ucd_cell at 1.
    unfold item. cbn [nth_error bind]. unfold to_int at 1. rewrite WI. cbn [bind]. unfold to_int at 1. rewrite WM. cbn [bind]. rewrite A. cbn [bind skipn].
    assert (X : exists zs, mapM to_int ws = Ok zs /\ mapM (fun i => zget i (places 0 (map fst nodes))) zs = Ok vs).
    { clear - V N. induction V as [|w v ws vs (n & E & W) V (zs & A & B)]; [exists []; split; reflexivity|]. exists (fst n :: zs). cbn [mapM]. unfold to_int at 1. rewrite W. cbn [bind].
      rewrite A. split; [reflexivity|]. rewrite (places_get _ v) by (auto; now apply map_nth_error). cbn [bind]. now rewrite B. }
    destruct X as (zs & Z1 & Z2). rewrite Z1. cbn [bind]. rewrite Z2. cbn [bind]. rewrite push_ucd. rewrite <- L.
    rewrite places_set. 2:{ clear - ND. revert ND. generalize (map c_number cells). intros l. induction l as [|y l IH] using rev_ind; intros ND; [now rewrite app_nil_r in ND|]. apply IH. rewrite app_assoc in ND. apply NoDup_remove_1 in ND. now rewrite app_nil_r in ND. }
    rewrite E. cbn [fold_left map]. rewrite <- !app_assoc. reflexivity.
Qed.
Lemma read_cells_file nodes cells ls r : NoDup (map fst nodes) -> NoDup (map c_number cells) -> Forall2 (cell_line nodes) cells ls ->
  exists blocks, read_cells (List.length cells) (places 0 (map fst nodes)) (ls ++ r) = Ok (places 0 (map c_number cells), blocks, map c_material cells, r) /\
    flat blocks = map in_mesh cells /\ merged blocks.
Proof.
  intros N NC F. destruct (fold_cells_file nodes N cells ls F [] [] [] NC eq_refl) as (tcs & T & E).
  destruct (push_all tcs []) as (PF & PM). cbn [flat flat_map app] in PF.
  destruct (reordered_cells (fold_left push tcs [])) as (blocks & RO & R2 & RS & RT).
  { rewrite PF. clear - T. induction T; constructor; eauto. }
  { apply PM. exact I. }
  exists blocks. split; [|split].
  - unfold read_cells. rewrite (MaterialProof.Forall2_length _ _ _ F), each_line_fold. change (@nil (Z * nat)) with (places 0 []). rewrite E. cbn [bind fst snd]. rewrite RO. cbn [bind app]. reflexivity.
  - rewrite PF in R2. clear - T R2. revert T R2. generalize (map in_mesh cells), (flat blocks). intros l k T. revert k. induction T as [|a b tcs l (A1 & o & A2 & A3 & A4) T IH]; intros k R; inversion R as [|? c ? k' (B1 & o' & B2 & B3 & B4) R']; subst; auto.
    f_equal; [|now apply IH]. destruct b as [b1 b2], c as [c1 c2]. cbn [fst snd] in *. f_equal; congruence.
  - apply (merged_same _ _ RS RT). apply PM. exact I.
Qed.

(** ** Data *)
Section Data.
Variable n : nat.
Definition known (done : list nat) (a : array) (i : nat) : option (list flt) := if existsb (Nat.eqb i) done then nth_error (a_rows a) i else None.
Definition state_of (done : list nat) (a : array) : str * partial_array := (a_name a, (a_width a, map (known done a) (seq 0 n))).
Definition label_of (a : array) : str * nat := (a_name a, a_width a).
Lemma state_names done data : map fst (map (state_of done) data) = map a_name data.
Proof. rewrite map_map. reflexivity. Qed.
Lemma seq_nth_error m : forall a i, i < m -> nth_error (seq a m) i = Some (a + i).
Proof. intros a i I. rewrite nth_error_nth' with (d := 0) by (rewrite seq_length; lia). now rewrite seq_nth. Qed.
Lemma known_step done a i r : i < n -> nth_error (a_rows a) i = Some r -> set_nth i (Some r) (map (known done a) (seq 0 n)) = map (known (i :: done) a) (seq 0 n).
Proof.
  intros I R. apply list_ext; [rewrite NumpyProof.set_nth_length, !map_length; reflexivity|]. intros j J. rewrite NumpyProof.set_nth_length, map_length, seq_length in J.
  assert (E : nth_error (map (known (i :: done) a) (seq 0 n)) j = Some (known (i :: done) a j)) by (apply map_nth_error; now rewrite seq_nth_error).
  rewrite E. destruct (Nat.eq_dec i j) as [<-|D].
  - rewrite NumpyProof.nth_set_same by (rewrite map_length, seq_length; lia). unfold known. cbn [existsb]. rewrite Nat.eqb_refl. cbn [orb]. now rewrite R.
  - rewrite NumpyProof.nth_set_other by auto. assert (E' : nth_error (map (known done a) (seq 0 n)) j = Some (known done a j)) by (apply map_nth_error; now rewrite seq_nth_error).
    rewrite E'. unfold known. cbn [existsb]. destruct (Nat.eqb_spec j i) as [->|_]; [now elim D|]. reflexivity.
Qed.
Lemma known_all done a : List.length (a_rows a) = n -> (forall i, i < n -> In i done) -> map (known done a) (seq 0 n) = map Some (a_rows a).
Proof.
  intros L A. apply list_ext; [now rewrite !map_length, seq_length|]. intros j J. rewrite map_length, seq_length in J.
  assert (E : nth_error (map (known done a) (seq 0 n)) j = Some (known done a j)) by (apply map_nth_error; now rewrite seq_nth_error).
  rewrite E. unfold known. assert (X : existsb (Nat.eqb j) done = true) by (apply existsb_exists; exists j; split; [auto|apply Nat.eqb_refl]). rewrite X.
  destruct (nth_error (a_rows a) j) as [r|] eqn:R; [|apply nth_error_None in R; lia]. symmetry. now apply map_nth_error.
Qed.
Lemma known_none a : map (known [] a) (seq 0 n) = repeat None n.
Proof. generalize 0. induction n as [|m IH]; intros b; cbn; auto. now rewrite IH. Qed.
Lemma read_labels_file r data labels : Forall2 label_line data labels -> forall prev, NoDup (map a_name (prev ++ data)) ->
  read_labels n (map Z.of_nat (map a_width data)) (labels ++ r) (map (state_of []) prev) = Ok (map label_of data, map (state_of []) (prev ++ data), r).
Proof.
  induction 1 as [|a l data labels (name & unit & S & A) F IH]; intros prev N; cbn [map read_labels app]; [now rewrite app_nil_r|].
  cbn [readline]. rewrite S.
  destruct (Z.leb_spec 0 (Z.of_nat (a_width a))) as [_|B]; [|lia]. cbn [guard bind]. rewrite Nat2Z.id.
  match goal with |- context [map ?f (strip name)] => replace (map f (strip name)) with (a_name a) by exact A end.
  assert (NI : ~ In (a_name a) (map fst (map (state_of []) prev))).
  { rewrite state_names. intros I. rewrite map_app in N. cbn [map] in N. apply NoDup_remove_2 in N. apply N. apply in_or_app. now left. }
  rewrite assoc_new by auto. cbn [bind]. rewrite sset_new by auto.
  assert (Q : map (state_of []) prev ++ [(a_name a, (a_width a, repeat None n))] = map (state_of []) (prev ++ [a])) by (rewrite map_app; cbn [map]; unfold state_of at 3; now rewrite known_none).
  match goal with |- context [read_labels n _ _ ?d] => replace d with (map (state_of []) (prev ++ [a])) by (symmetry; exact Q) end.
  rewrite IH by (rewrite <- app_assoc; exact N). cbn [bind]. rewrite <- app_assoc. reflexivity.
Qed.
Lemma read_values_file i old todo : i < n -> Forall (array_ok n) todo -> forall j pre done rows ws,
  Forall2 (fun a r => nth_error (a_rows a) i = Some r) todo rows -> reals ws (concat rows) ->
  List.length pre = j + 1 -> NoDup (map a_name (done ++ todo)) ->
  read_values (pre ++ ws) i j (map label_of todo) (map (state_of (i :: old)) done ++ map (state_of old) todo) = Ok (map (state_of (i :: old)) (done ++ todo)).
Proof.
  intros K. induction todo as [|a todo IH]; intros F j pre done rows ws R V L N.
  - cbn. now rewrite !app_nil_r.
  - inversion R as [|? row ? rows' RE R']; subst. inversion_clear F as [|? ? (W & LR & WR) F'].
    assert (RL : List.length row = a_width a) by (rewrite Forall_forall in WR; apply WR; eapply nth_error_In; eauto).
    cbn [concat] in V. unfold reals in V. apply Forall2_app_inv_r in V as (w1 & w2 & V1 & V2 & ->).
    pose proof (MaterialProof.Forall2_length _ _ _ V1) as LW. cbn [map read_values label_of].
    assert (NI : ~ In (a_name a) (map fst (map (state_of (i :: old)) done))).
    { rewrite state_names. intros I. rewrite map_app in N. cbn [map] in N. apply NoDup_remove_2 in N. apply N. apply in_or_app. now left. }
    assert (VALS : (if a_width a =? 1 then let* s := item (pre ++ w1 ++ w2) (j + 1) in let* x := to_flt s in Ok [x]
        else let* xs := mapM to_flt (firstn (a_width a) (skipn (j + 1) (pre ++ w1 ++ w2))) in
          match xs with [x] => Ok (repeat x (a_width a)) | _ => let* _ := guard (List.length xs =? a_width a) ValueError in Ok xs end) = Ok row).
    { destruct (Nat.eqb_spec (a_width a) 1) as [W1|W1].
      - rewrite W1 in RL. destruct row as [|x1 [|? ?]]; try discriminate RL. inversion V1 as [|w0 ? ? ? E0 V1']; subst. inversion V1'; subst. unfold item. rewrite nth_error_app2 by lia.
        rewrite L, Nat.sub_diag. cbn [map app nth_error bind]. unfold to_flt. rewrite E0. reflexivity.
      - rewrite skipn_app, <- L, skipn_all, Nat.sub_diag. cbn [app skipn]. rewrite firstn_app, LW, RL, Nat.sub_diag. cbn [firstn]. rewrite app_nil_r.
        rewrite firstn_all2 by lia. rewrite (reals_ok w1 row V1). cbn [bind].
        destruct row as [|x1 [|y1 row]]; [cbn in RL; lia|cbn in RL; lia|]. rewrite <- RL, Nat.eqb_refl. reflexivity. }
    match goal with |- bind ?v _ = _ => assert (EV : v = Ok row) by exact VALS end. rewrite EV. clear EV. cbn [bind].
    unfold state_of at 2. rewrite assoc_mid by auto. cbn [bind fst snd]. unfold state_of at 2. rewrite sset_mid by auto. rewrite known_step by auto.
    assert (ES : map (state_of (i :: old)) done ++ (a_name a, (a_width a, map (known (i :: old) a) (seq 0 n))) :: map (state_of old) todo = map (state_of (i :: old)) (done ++ [a]) ++ map (state_of old) todo)
      by (rewrite map_app, <- app_assoc; reflexivity).
    match goal with |- read_values _ _ _ _ ?d = _ => replace d with (map (state_of (i :: old)) (done ++ [a]) ++ map (state_of old) todo) by (symmetry; exact ES) end.
    rewrite app_assoc. rewrite (IH F' (j + a_width a) (pre ++ w1) (done ++ [a]) rows' w2 R' V2).
    + now rewrite <- app_assoc.
    + rewrite app_length. lia.
    + now rewrite <- app_assoc.
Qed.
Lemma filled_file a : array_ok n a -> filled (a_width a, map Some (a_rows a)) = Ok (snd (data_of a)).
Proof.
  intros (W & L & R). unfold filled, data_of. cbn [snd fst].
  assert (M : mapM (fun o => match o with Some r => Ok r | None => Err Unmodelled end) (map (@Some (list flt)) (a_rows a)) = Ok (a_rows a)).
  { clear. induction (a_rows a) as [|x l IH]; [reflexivity|]. cbn [map mapM bind]. now rewrite IH. }
  rewrite M. cbn [bind]. destruct (Nat.eqb_spec (a_width a) 1) as [W1|_]; [|reflexivity]. rewrite W1 in R. clear - R.
  induction R as [|r l RL R IH]; [reflexivity|]. destruct r as [|x [|? ?]]; try discriminate RL. cbn [concat mapM app]. unfold item at 1. cbn [nth_error bind].
  destruct (mapM (fun r => item r 0) l) as [xs|]; [|discriminate IH]. cbn [bind] in *. congruence.
Qed.
Lemma read_data_file numbers data ls r : List.length numbers = n -> NoDup numbers -> Forall (array_ok n) data -> NoDup (map a_name data) ->
  data_lines numbers data ls -> read_data n (places 0 numbers) (ls ++ r) = Ok (map data_of data, r).
Proof.
  intros LN NN F N (head & labels & rows & order & w & ws & -> & HS & HC & LL & P & RR). unfold read_data. cbn [app readline].
  rewrite words_of_split, HS. cbn [skipn]. rewrite (counts_ok _ _ HC). cbn [bind]. rewrite <- app_assoc.
  pose proof (read_labels_file (rows ++ r) data labels LL [] N) as RL. cbn [map app] in RL. rewrite RL. cbn [bind].
  assert (LR : List.length rows = n) by (rewrite <- (MaterialProof.Forall2_length _ _ _ RR), (Permutation_length P), seq_length; exact LN).
  rewrite <- LR at 1. rewrite each_line_fold.
  assert (G : forall old, foldM (fun st line => let* w := item line 0 in let* i := to_int w in let* eid := zget i (places 0 numbers) in read_values line eid 0 (map label_of data) st)
      (map (state_of old) data) (map words_of rows) = Ok (map (state_of (rev order ++ old)) data)).
  { assert (OB : Forall (fun i => i < n) order).
    { apply Forall_forall. intros i I. apply (Permutation_in _ P) in I. apply in_seq in I. lia. }
    clear P LR RL. induction RR as [|i l order rows (w0 & ws0 & z & rs & S & WZ & NZ & RF & RV) RR IH]; intros old; [reflexivity|].
    inversion_clear OB as [|? ? IB OB']. cbn [map foldM]. rewrite words_of_split, S. unfold item at 1. cbn [nth_error bind]. unfold to_int at 1. rewrite WZ. cbn [bind].
    rewrite (places_get _ i) by auto. cbn [bind].
    pose proof (read_values_file i old data IB F 0 [w0] [] rs ws0 RF RV eq_refl N) as RD. cbn [map app] in RD.
    match goal with |- bind ?v _ = _ => assert (EV : v = Ok (map (state_of (i :: old)) data)) by exact RD end. rewrite EV. cbn [bind].
    rewrite (IH OB' (i :: old)). cbn [rev]. now rewrite <- app_assoc. }
  rewrite G. cbn [bind fst snd].
  assert (MF : mapM (fun e => let* d := filled (snd e) in Ok (fst e, d)) (map (state_of (rev order ++ [])) data) = Ok (map data_of data)).
  { assert (A : forall i, i < n -> In i (rev order ++ [])).
    { intros i I. rewrite app_nil_r, <- in_rev. apply (Permutation_in _ (Permutation_sym P)). apply in_seq. lia. }
    clear - F A. induction F as [|a data AO F IH]; [reflexivity|]. cbn [map mapM]. unfold state_of at 1. cbn [fst snd]. rewrite known_all by (apply AO || exact A).
    rewrite filled_file by auto. cbn [bind]. rewrite IH. reflexivity. }
  rewrite MF. cbn [bind]. reflexivity.
Qed.
End Data.
Lemma section_read z numbers data ls r : NoDup numbers -> Forall (array_ok (List.length numbers)) data -> NoDup (map a_name data) -> section z numbers data ls ->
  (if (z =? 0)%Z then Ok ([], ls ++ r) else read_data (List.length numbers) (places 0 numbers) (ls ++ r)) = Ok (map data_of data, r).
Proof.
  intros N F NN [(-> & -> & ->)|(NZ & D)]; [reflexivity|]. destruct (Z.eqb_spec z 0) as [E|_]; [now elim NZ|]. now apply read_data_file.
Qed.

(** ** The whole file *)
Lemma skip_head comments head r : Forall comment comments -> ~ comment head -> split_ws head <> [] -> skip_comments (comments ++ head :: r) = (strip head, r).
Proof.
  intros C H S. induction C as [|l comments (s & E) C IH].
  - cbn [app skip_comments]. destruct (strip head) as [|c t] eqn:E.
    + elim S. rewrite <- words_of_split. unfold words_of. now rewrite E.
    + destruct (Ascii.eqb_spec c "#"%char) as [->|]; [|reflexivity]. elim H. now exists t.
  - cbn [app skip_comments]. rewrite E, Ascii.eqb_refl. exact IH.
Qed.
Lemma cut_join {A} (K : list A -> darray) sizes l : (forall l k, append (K l) (K k) = Ok (K (l ++ k))) -> concatenate (map K (np_split l sizes)) = Ok (K l).
Proof. intros H. unfold np_split. now apply conc_split. Qed.
Theorem ucd_file_read nodes cells pdata cdata file : ucd_file nodes cells pdata cdata file -> file_ok nodes cells pdata cdata ->
  exists m, read_mesh file = Ok m /\ u_points m = map snd nodes /\ flat (u_cells m) = map in_mesh cells /\ merged (u_cells m) /\
    u_point_data m = map data_of pdata /\ u_cell_data m = map data_of cdata ++ [($"material", Ints (map c_material cells))].
Proof.
  intros (comments & head & wn & wc & wp & we & ws & np & ne & l1 & l2 & l3 & l4 & rest & LF & CC & NC & HS & EN & EC & EP & EE & FN & FC & SP & SE)
    (NE & CE & ND & CD & (d & DD) & PO & CO & PN & CN & CM).
  unfold read_mesh. rewrite LF, (skip_head _ _ _ CC NC) by (rewrite HS; discriminate).
  assert (W : split_ws (strip head) = split_ws head) by apply words_of_split. rewrite W, HS. cbn [firstn mapM]. unfold to_int. rewrite EN, EC, EP, EE. cbn [bind].
  unfold sized. rewrite !Nat2Z.id. rewrite (read_nodes_file _ _ _ d NE ND DD FN). cbn [bind].
  destruct (read_cells_file nodes cells l2 (l3 ++ l4 ++ rest) ND CD FC) as (blocks & RC & FB & MB). rewrite RC. cbn [bind].
  assert (LP : List.length nodes = List.length (map fst nodes)) by (symmetry; apply map_length).
  assert (LC : List.length cells = List.length (map c_number cells)) by (symmetry; apply map_length).
  pose proof (section_read np (map fst nodes) pdata l3 (l4 ++ rest) ND ltac:(rewrite <- LP; exact PO) PN SP) as RP. rewrite <- LP in RP. rewrite RP. cbn [bind fst snd].
  pose proof (section_read ne (map c_number cells) cdata l4 rest CD ltac:(rewrite <- LC; exact CO) CN SE) as RE. rewrite <- LC in RE. rewrite RE. cbn [bind fst snd].
  match goal with |- context [mapM ?f (map data_of cdata)] => assert (MC : mapM f (map data_of cdata) = Ok (map data_of cdata)) end.
  { clear. induction cdata as [|a cdata IH]; [reflexivity|]. cbn [map mapM]. match goal with |- bind ?x _ = _ => assert (X : x = Ok (data_of a)) end.
    - unfold data_of. cbn [fst snd]. destruct (a_width a =? 1); cbn [bind]; (rewrite cut_join by (intros; first [reflexivity | apply append_rows])); reflexivity.
    - rewrite X. cbn [bind]. rewrite IH. reflexivity. }
  rewrite MC. cbn [bind].
  assert (BN : List.length blocks <> 0) by (destruct blocks; [destruct cells; [now elim CE|discriminate FB]|discriminate]).
  destruct (Nat.eqb_spec (List.length blocks) 0) as [E|_]; [now elim BN|]. cbn [negb guard bind].
  assert (NM : forall k, names_material k -> ~ In k (map fst (map data_of cdata))).
  { intros k M I. rewrite map_map in I. apply in_map_iff in I as (a & <- & I). rewrite Forall_forall in CM. exact (CM a I M). }
  assert (N1 : names_material $"avsucd:material") by (exists "avsucd:material"%string; split; [cbn; tauto|reflexivity]).
  assert (N2 : names_material $"material") by (exists "material"%string; split; [cbn; tauto|reflexivity]).
  rewrite sset_many. 2:{ cbn [app map fst]. constructor; [now apply NM|]. rewrite map_map. exact CN. }
  cbn [app find fst]. assert (IM : is_material $"avsucd:material" = true) by reflexivity. rewrite IM. cbn [filter fst snd]. rewrite streqb_refl. cbn [negb].
  assert (FI : filter (fun e : str * darray => negb (streqb (fst e) $"avsucd:material")) (map data_of cdata) = map data_of cdata).
  { specialize (NM _ N1). clear - NM. induction (map data_of cdata) as [|e l IH]; [reflexivity|]. cbn [filter]. destruct (streqb (fst e) $"avsucd:material") eqn:E.
    - apply streqb_eq in E. elim NM. now left.
    - cbn [negb]. f_equal. apply IH. intros I. apply NM. now right. }
  rewrite FI, sset_new by now apply NM. eexists. split; [reflexivity|]. cbn [u_points u_cells u_point_data u_cell_data]. repeat (split; [first [reflexivity | assumption]|]). reflexivity.
Qed.
