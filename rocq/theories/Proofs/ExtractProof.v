(** toughio-extract. *)
From Coq Require Import String Ascii ZArith Bool Lia Permutation List.
From Verif Require Import Base.Str Base.Digits Base.Flt Base.FltText Base.FltArith.
From Verif Require Import Model.Py Model.Read Model.Dispatch Model.Output Model.Cli Model.Extract.
From Verif Require Import Spec.Output Spec.Values Spec.Mesh Spec.Dispatch Spec.Extract.
From Verif Require Import Proofs.DictLemmas Proofs.ReorderProof Proofs.CellText Proofs.CsvProof Proofs.RecognizeProof Proofs.ListingProof Proofs.DispatchProof.
Import ListNotations.
Local Open Scope Z_scope.

Lemma center_found p els s c : dget #"elements" p = Some (PDict els) -> center_at p s c -> center_of els s = Ok c.
Proof.
  intros E (e & q & x & y & z & H1 & H2 & ->). rewrite (val_some _ _ _ E) in H1. cbn [entries] in H1.
  unfold center_of, dgetE. rewrite H1. cbn [bind]. unfold subscript. cbn [as_dict bind]. unfold dgetE. rewrite H2. reflexivity.
Qed.
Lemma place_found p els (b : bool) l pt : dget #"elements" p = Some (PDict els) -> label_kind b l -> place p l pt ->
  point_of els b l = Ok pt.
Proof.
  intros E K H. unfold label_kind in K. destruct b.
  - destruct l as [|s [|t [|u l]]]; try discriminate. destruct H as (x & y & z & x' & y' & z' & u & v & w & H1 & H2 & -> & -> & -> & ->).
    unfold point_of. cbn [mapM]. rewrite (center_found _ _ _ _ E H1). cbn [bind]. rewrite (center_found _ _ _ _ E H2). reflexivity.
  - destruct l as [|s [|t l]]; try discriminate. exact (center_found _ _ _ _ E H).
Qed.

(** Points of three coordinates, chosen for the labels. *)
Lemma places_chosen p ls : Forall (fun l => exists pt, place p l pt) ls -> exists pts,
  Forall2 (fun l pt => place p l pt /\ exists x y z, pt = [x; y; z]) ls pts.
Proof.
  induction 1 as [|l ls (pt & H) F (pts & IH)]; [now exists []|]. exists (pt :: pts). constructor; auto. split; auto.
  destruct l as [|s [|t [|u l]]]; try contradiction.
  - destruct H as (e & q & x & y & z & _ & _ & ->). eauto.
  - destruct H as (x & y & z & x' & y' & z' & u & v & w & _ & _ & -> & _). eauto.
Qed.
Lemma three_columns (pts : list (list flt)) : pts <> [] -> Forall (fun pt => exists x y z, pt = [x; y; z]) pts ->
  transpose pts = Ok [map (fun pt => nth 0 pt NaN) pts; map (fun pt => nth 1 pt NaN) pts; map (fun pt => nth 2 pt NaN) pts].
Proof.
  intros NE F. replace pts with (map (fun a => map ((fun pt j => nth j pt NaN) a) [0; 1; 2]%nat) pts) at 1.
  - rewrite transpose_map by auto. reflexivity.
  - rewrite <- (map_id pts) at 2. apply map_ext_in. intros pt I. rewrite Forall_forall in F. destruct (F _ I) as (x & y & z & ->). reflexivity.
Qed.
Lemma tset3 (data : table (list flt)) xs ys zs : (forall k, In k coordinate_names -> ~ In k (map fst data)) ->
  fold_left (fun acc kv => tset (fst kv) (snd kv) acc) (combine [$"X"; $"Y"; $"Z"] [xs; ys; zs]) data =
  data ++ [($"X", xs); ($"Y", ys); ($"Z", zs)].
Proof.
  intros N. cbn [combine fold_left fst snd]. rewrite (tset_new $"X") by (apply N; now left).
  rewrite (tset_new $"Y").
  2:{ rewrite map_app, in_app_iff. intros [I|[I|[]]]; [|discriminate]. revert I. apply N. right. now left. }
  rewrite (tset_new $"Z").
  2:{ rewrite !map_app, !in_app_iff. intros [[I|[I|[]]]|[I|[]]]; try discriminate. revert I. apply N. right. right. now left. }
  now rewrite <- !app_assoc.
Qed.

Lemma last_output_in outs o : last_output outs = Some o -> In o outs.
Proof.
  induction outs as [|a [|b outs] IH]; cbn [last_output]; [discriminate|intros [= ->]; now left|]. intros H. right. now apply IH.
Qed.
Lemma last_output_some outs : outs <> [] -> exists o, last_output outs = Some o.
Proof. induction outs as [|a [|b outs] IH]; [congruence|eexists; reflexivity|]. intros _. apply IH. discriminate. Qed.

Theorem extract_places fuel a infile mesh p els outs ls :
  read_text fuel (x_length a) mesh = Ok p -> dget #"elements" p = Some (PDict els) ->
  read_output None (x_connection a) (option_map Z.to_nat (x_length a)) (lines infile) = Ok outs ->
  outs <> [] -> ls <> [] ->
  Forall (fun o => o_format o = $"tough" /\ o_labels o = Some ls /\ forall k, In k coordinate_names -> ~ In k (names o)) outs ->
  Forall (fun l => label_kind (x_connection a) l /\ exists pt, place p l pt) ls ->
  exists outs', located fuel a infile mesh = Ok outs' /\ Forall2 (with_places p) outs outs'.
Proof.
  intros R E O NE NL F P. unfold located. rewrite R. cbn [bind]. rewrite E. cbn [as_dict bind]. rewrite O. cbn [bind].
  destruct (last_output_some outs NE) as (o & L). rewrite L.
  pose proof (last_output_in _ _ L) as I. rewrite Forall_forall in F. destruct (F _ I) as (H1 & H2 & H3). rewrite H1, H2. cbn [guard streqb bind].
  change (guard (streqb $"tough" $"tough") ValueError) with (@Ok unit tt). cbn [bind].
  destruct (places_chosen p ls) as (pts & C). { eapply Forall_impl; [|exact P]. now intros l []. }
  assert (M : mapM (point_of els (x_connection a)) ls = Ok pts).
  { clear -E P C. revert P. induction C as [|l pt ls pts (H & _) C IH]; intros P; [reflexivity|]. apply Forall_cons_iff in P as [(K & _) P].
    cbn [mapM]. rewrite (place_found p els _ _ _ E K H). cbn [bind]. rewrite IH by auto. reflexivity. }
  assert (NP : pts <> []) by (intros ->; inversion C; congruence).
  assert (T : Forall (fun pt => exists x y z, pt = [x; y; z]) pts).
  { clear -C. induction C as [|l pt ls pts (_ & H) C IH]; constructor; auto. }
  unfold points_of. rewrite M. cbn [bind]. destruct pts as [|p0 ps] eqn:EP; [congruence|]. rewrite <- EP in *.
  rewrite three_columns by auto. cbn [bind or_inconsistent].
  eexists. split; [reflexivity|].
  assert (G : forall o, In o outs -> with_places p o (with_points [map (fun pt => nth 0 pt NaN) pts; map (fun pt => nth 1 pt NaN) pts; map (fun pt => nth 2 pt NaN) pts] o)).
  { intros q Q. destruct (F _ Q) as (Q1 & Q2 & Q3). unfold with_places, with_points. cbn [o_type o_format o_time o_labels o_data].
    split; [auto|]. split; [auto|]. split; [auto|]. split; [auto|]. eexists _, _, _. split; [apply tset3; exact Q3|].
    intros ls' E'. rewrite Q2 in E'. injection E' as <-. rewrite !map_length.
    assert (LEN : List.length pts = List.length ls). { clear -C. induction C; cbn; congruence. }
    split; [auto|]. split; [auto|]. split; [auto|]. intros i l N. rewrite !nth_error_map.
    clear -C N. revert i N. induction C as [|l0 pt ls pts (H & x & y & z & ->) C IH]; intros [|i] N; try discriminate; cbn [nth_error] in N.
    - injection N as ->. exists x, y, z. cbn. auto.
    - exact (IH i N). }
  clear -G. revert G. generalize (with_points [map (fun pt => nth 0 pt NaN) pts; map (fun pt => nth 1 pt NaN) pts; map (fun pt => nth 2 pt NaN) pts]).
  intros f G. induction outs as [|q outs IH]; constructor; [apply G; now left|apply IH; intros; apply G; now right].
Qed.

(** ** The sheets with the coordinates can be written *)
Lemma with_places_names p o o' : with_places p o o' -> names o' = names o ++ coordinate_names.
Proof. intros (_ & _ & _ & _ & xs & ys & zs & E & _). unfold names. rewrite E, map_app. reflexivity. Qed.
Lemma column_f64 p ls xs ys zs (P : list flt -> Prop) :
  (forall l pt, In l ls -> place p l pt -> Forall (fun x => is_f64 x = true) pt) ->
  List.length xs = List.length ls -> List.length ys = List.length ls -> List.length zs = List.length ls ->
  (forall i l, nth_error ls i = Some l ->
     exists x y z, place p l [x; y; z] /\ nth_error xs i = Some x /\ nth_error ys i = Some y /\ nth_error zs i = Some z) ->
  forall k c, In (k, c) [($"X", xs); ($"Y", ys); ($"Z", zs)] -> List.length c = List.length ls /\ Forall (fun x => is_f64 x = true) c.
Proof.
  intros F LX LY LZ H k c I.
  assert (G : forall c, List.length c = List.length ls -> (forall i x, nth_error c i = Some x -> is_f64 x = true) ->
    List.length c = List.length ls /\ Forall (fun x => is_f64 x = true) c).
  { intros c' L N. split; auto. apply Forall_forall. intros x Ix. apply In_nth_error in Ix as (i & Ix). eauto. }
  assert (K : forall i, (i < List.length ls)%nat -> exists l x y z, is_f64 x = true /\ is_f64 y = true /\ is_f64 z = true /\
     place p l [x; y; z] /\ nth_error xs i = Some x /\ nth_error ys i = Some y /\ nth_error zs i = Some z).
  { intros i L. apply nth_error_Some in L. destruct (nth_error ls i) as [l|] eqn:E; [|congruence]. destruct (H i l E) as (x & y & z & P1 & P2).
    pose proof (F l _ (nth_error_In _ _ E) P1) as Q. inversion_clear Q as [|? ? Q1 Q']. inversion_clear Q' as [|? ? Q2 Q'']. inversion_clear Q'' as [|? ? Q3 _].
    exists l, x, y, z. auto 8. }
  destruct I as [[= <- <-]|[[= <- <-]|[[= <- <-]|[]]]]; apply G; auto; intros i v N;
    (assert (L : (i < List.length ls)%nat) by (first [rewrite <- LX; apply nth_error_Some; congruence|rewrite <- LY; apply nth_error_Some; congruence|rewrite <- LZ; apply nth_error_Some; congruence]));
    destruct (K i L) as (l & x & y & z & A & B & C & _ & X & Y & Z); congruence.
Qed.
Lemma NoDup_app_intro {A} (a b : list A) : NoDup a -> NoDup b -> (forall x, In x a -> ~ In x b) -> NoDup (a ++ b).
Proof.
  induction a as [|x a IH]; intros Na Nb D; [exact Nb|]. inversion_clear Na. cbn [app]. constructor.
  - rewrite in_app_iff. intros [I|I]; [auto|]. exact (D x (or_introl eq_refl) I).
  - apply IH; auto. intros y Y. apply D. now right.
Qed.
Lemma Forall2_right {A B} (R : A -> B -> Prop) (P : A -> Prop) (Q : B -> Prop) l l' : Forall2 R l l' -> Forall P l ->
  (forall a b, R a b -> P a -> Q b) -> Forall Q l'.
Proof. intros F H I. induction F; constructor; inversion_clear H; eauto. Qed.
Lemma Forall2_in_right {A B} (R : A -> B -> Prop) l l' b : Forall2 R l l' -> In b l' -> exists a, In a l /\ R a b.
Proof. induction 1 as [|x y l l' H F IH]; [contradiction|]. intros [->|I]; [exists x; split; auto; now left|]. destruct (IH I) as (a & Ia & Ra). exists a. split; auto. now right. Qed.

Definition coordinates_f64 (p : dict) (ls : list (list str)) : Prop :=
  forall l pt, In l ls -> place p l pt -> Forall (fun x => is_f64 x = true) pt.
Definition no_coordinates (o : output) : Prop := forall k, In k coordinate_names -> ~ In k (names o).
Lemma with_places_sheets t n p ls outs outs' : Forall2 (with_places p) outs outs' -> csv_sheets t n outs -> no_equal_sign outs ->
  Forall (fun o => o_labels o = Some ls /\ no_coordinates o) outs -> coordinates_f64 p ls ->
  csv_sheets t n outs' /\ no_equal_sign outs'.
Proof.
  intros F (NE & N0 & SH & TY & INC) EQ L C. split.
  - split; [intros ->; inversion F; congruence|]. split; [auto|]. split; [|split].
    + assert (B : Forall (fun o => sheet (csv_label t) n o /\ o_labels o = Some ls /\ no_coordinates o) outs).
      { clear -SH L. induction SH; inversion_clear L; constructor; tauto. }
      eapply Forall2_right; [exact F|exact B|]. cbn beta. intros o o' W (S1 & S2 & S3). pose proof (with_places_names _ _ _ W) as NN.
      destruct W as (W1 & W2 & W3 & W4 & xs & ys & zs & D & W5). destruct S1 as [SL ST SN SD]. constructor.
      * rewrite W4. exact SL.
      * rewrite W3. exact ST.
      * rewrite NN. apply NoDup_app_intro; auto.
        -- repeat constructor; cbn; intuition discriminate.
        -- intros k K1 K2. exact (S3 k K2 K1).
      * intros k c I. rewrite D in I. apply in_app_iff in I as [I|I]; [eauto|]. destruct SL as (ls' & E1 & E2 & _). rewrite S2 in E1. injection E1 as <-.
        destruct (W5 ls S2) as (LX & LY & LZ & W6). rewrite <- E2. eapply (column_f64 p ls xs ys zs (fun _ => True)); eauto.
    + eapply Forall2_right; [exact F|exact TY|]. cbn beta. intros o o' W (T1 & T2). pose proof (with_places_names _ _ _ W) as ->.
      destruct W as (W1 & _). split; [congruence|]. apply Forall_app. split; auto.
      assert (K : forall k, In k coordinate_names -> csv_name k).
      { intros k K. destruct K as [<-|[<-|[<-|[]]]]; (split; [split; [reflexivity|]|reflexivity]); intros c I; cbn in I; destruct I as [<-|[]];
          repeat split; discriminate. }
      now apply Forall_forall.
    + intros o o' I I'. destruct (Forall2_in_right _ _ _ _ F I) as (a & Ia & Wa). destruct (Forall2_in_right _ _ _ _ F I') as (b & Ib & Wb).
      rewrite (with_places_names _ _ _ Wa), (with_places_names _ _ _ Wb). apply incl_app; [apply incl_appl; auto|apply incl_appr, incl_refl].
  - unfold no_equal_sign in *. eapply Forall2_right; [exact F|exact EQ|]. cbn beta. intros o o' W H. rewrite (with_places_names _ _ _ W).
    apply Forall_app. split; auto. repeat constructor; cbn; intuition discriminate.
Qed.

(** ** The command *)
Lemma f2_length {A B} {R : A -> B -> Prop} {l l'} : Forall2 R l l' -> List.length l = List.length l'.
Proof. induction 1; cbn; congruence. Qed.
Section Command.
Variables (fuel : nat) (d : disk) (a : xargs) (infile mesh : str) (p els : dict) (outs : list output) (ls : list (list str)).
Hypothesis (DI : d (x_infile a) = Some infile) (DM : d (x_mesh a) = Some mesh).
Hypothesis (RM : read_text fuel (x_length a) mesh = Ok p) (EL : dget #"elements" p = Some (PDict els)).
Hypothesis (RO : read_output None (x_connection a) (option_map Z.to_nat (x_length a)) (lines infile) = Ok outs).
Hypothesis (NE : outs <> []) (NL : ls <> []).
Hypothesis (LB : Forall (fun o => o_format o = $"tough" /\ o_labels o = Some ls /\ no_coordinates o) outs).
Hypothesis (PL : Forall (fun l => label_kind (x_connection a) l /\ exists pt, place p l pt) ls).

Lemma target_name f : target (x_output a) (x_connection a) (x_format a) f -> f = xfilename a.
Proof.
  unfold xfilename. intros T. inversion T as [g c x H1 H2 H3 H4|x N H1 H2 H3 H4|H1 H2 H3 H4|x N H1 H2 H3 H4|H1 H2 H3 H4]; subst; auto; rewrite <- ?H2, <- ?H3; try reflexivity;
    destruct (x_format a); try reflexivity; congruence.
Qed.
Theorem extract_whole f text : target (x_output a) (x_connection a) (x_format a) f -> x_connection a && negb (is_csv (x_format a)) = false ->
  x_split a = false \/ List.length outs = 1%nat ->
  exists outs', Forall2 (with_places p) outs outs' /\
    (write_output (x_format a) outs' = Ok text -> extract fuel d a = (Ok tt, store d f text)).
Proof.
  intros T CF SP. rewrite (target_name f T). destruct (extract_places fuel a infile mesh p els outs ls RM EL RO NE NL LB PL) as (outs' & E & F).
  exists outs'. split; auto. intros W. unfold extract. rewrite CF, DI, DM, E.
  replace (negb (x_split a) || Nat.eqb (List.length outs') 1) with true.
  - now rewrite W.
  - symmetry. destruct SP as [-> | S1]; [reflexivity|]. rewrite (f2_length F) in S1. rewrite S1. apply orb_true_r.
Qed.

Hypothesis (FM : x_format a = XCsv).
Variables (t : ftype) (n : nat).
Hypothesis (SH : csv_sheets t n outs) (EQ : no_equal_sign outs) (CO : coordinates_f64 p ls).
Lemma labelled : Forall (fun o => o_labels o = Some ls /\ no_coordinates o) outs.
Proof. eapply Forall_impl; [|exact LB]. cbn beta. intros o (_ & A & B). auto. Qed.

Theorem extract_csv f : target (x_output a) (x_connection a) (x_format a) f -> x_split a = false \/ List.length outs = 1%nat ->
  exists text outs1 outs2, extract fuel d a = (Ok tt, store d f text) /\
    Forall2 (with_places p) outs outs1 /\ (forall b len, read_output None b len (lines text) = Ok outs2) /\
    Forall2 (comes_back $"csv" 8 12 true) outs1 outs2.
Proof.
  intros T SP. rewrite (target_name f T). destruct (extract_places fuel a infile mesh p els outs ls RM EL RO NE NL LB PL) as (outs' & E & F).
  destruct (with_places_sheets t n p ls outs outs' F SH EQ labelled CO) as [SH' EQ'].
  destruct (csv_api t n outs' SH' EQ') as (recs & outs2 & W & R & B). exists (concat recs), outs', outs2.
  split; [|auto]. unfold extract. rewrite FM, DI, DM, E. cbn [is_csv negb]. rewrite andb_false_r.
  replace (negb (x_split a) || Nat.eqb (List.length outs') 1) with true.
  - unfold write_output. rewrite W. reflexivity.
  - symmetry. destruct SP as [-> | S1]; [reflexivity|]. rewrite (f2_length F) in S1. rewrite S1. apply orb_true_r.
Qed.

Lemma one_sheet o outs' : csv_sheets t n outs' -> In o outs' -> csv_sheets t n [o].
Proof.
  intros (A & B & C & D & E) I. rewrite Forall_forall in C, D. split; [discriminate|]. split; [auto|]. split; [constructor; auto|].
  split; [constructor; auto|]. intros x y [<-|[]] [<-|[]]. apply incl_refl.
Qed.
Lemma step_name_inj f i j : step_name f i = step_name f j -> i = j.
Proof.
  unfold step_name. intros H. apply app_inv_head in H. cbn [lit list_ascii_of_string app] in H. injection H as H. apply app_inv_tail in H.
  apply print_Z_inj in H. lia.
Qed.
Lemma write_steps_ok f : forall os i d0, (forall o, In o os -> exists text, write_output XCsv [o] = Ok text) ->
  exists d1, write_steps d0 f i os = (Ok tt, d1) /\
    (forall m, (forall j, (j < List.length os)%nat -> m <> step_name f (i + j)) -> d1 m = d0 m) /\
    forall j o, nth_error os j = Some o -> exists text, write_output XCsv [o] = Ok text /\ d1 (step_name f (i + j)) = Some text.
Proof.
  induction os as [|o os IH]; intros i d0 H; cbn [write_steps].
  - exists d0. split; auto. split; auto. intros [|j] o; discriminate.
  - destruct (H o (or_introl eq_refl)) as (text & W). rewrite W.
    destruct (IH (S i) (store d0 (step_name f i) text) (fun q I => H q (or_intror I))) as (d1 & E & O & N). exists d1. split; auto. split.
    + intros m M. rewrite O.
      * unfold store. destruct (streqb m (step_name f i)) eqn:X; auto. apply streqb_eq in X. exfalso. apply (M 0%nat); [cbn; lia|]. now rewrite Nat.add_0_r.
      * intros j L. rewrite Nat.add_succ_comm. apply M. cbn. lia.
    + intros [|j] q Q; cbn [nth_error] in Q.
      * injection Q as <-. exists text. split; auto. rewrite Nat.add_0_r, O.
        -- unfold store. now rewrite streqb_refl.
        -- intros j _ X. apply step_name_inj in X. lia.
      * rewrite <- Nat.add_succ_comm. now apply N.
Qed.
Lemma nth_error_Some_lt {A} (l : list A) i x : nth_error l i = Some x -> (i < List.length l)%nat.
Proof. intros H. apply nth_error_Some. congruence. Qed.
Lemma F2_places {A B} (R : A -> B -> Prop) (g : nat -> B) : forall (l : list A) i, (forall j o, nth_error l j = Some o -> R o (g (i + j)%nat)) ->
  Forall2 R l (map g (seq i (List.length l))).
Proof.
  induction l as [|o l IH]; intros i H; cbn; constructor; [rewrite <- (Nat.add_0_r i); now apply (H 0%nat)|].
  apply IH. intros j q Q. cbn. rewrite <- Nat.add_succ_r. now apply (H (S j)).
Qed.
Lemma step_name_file f i : step_file f (S i) (step_name f i).
Proof.
  unfold step_file, step_name, without_ext. replace (Z.of_nat i + 1) with (Z.of_nat (S i)) by lia.
  destruct (extension f) as [|c e] eqn:E.
  - right. split.
    + intros ext H. pose proof (extension_of _ _ H) as X. rewrite E in X. subst ext. destruct H as (dir & base & e & _ & X & _). discriminate.
    + unfold drop_last. cbn [List.length]. now rewrite Nat.sub_0_r, firstn_all, !app_nil_r.
  - left. assert (H : has_extension f (extension f)) by (apply extension_inv; congruence). rewrite E in H.
    destruct H as (dir & base & e' & X & Y & R). exists (dir ++ base), (c :: e). split; [now exists dir, base, e'|]. split; [now rewrite <- app_assoc|].
    f_equal. unfold drop_last. rewrite X, app_assoc, app_length, Nat.add_sub, firstn_app, Nat.sub_diag, firstn_all. apply app_nil_r.
Qed.
Theorem extract_split f : target (x_output a) (x_connection a) (x_format a) f -> x_split a = true -> List.length outs <> 1%nat ->
  exists d1 outs1 names, extract fuel d a = (Ok tt, d1) /\ Forall2 (with_places p) outs outs1 /\
    (forall i g, nth_error names i = Some g -> step_file f (S i) g) /\ NoDup names /\
    (forall m, ~ In m names -> d1 m = d m) /\
    Forall2 (fun o g => exists text o2, d1 g = Some text /\
      (forall b len, read_output None b len (lines text) = Ok [o2]) /\ comes_back $"csv" 8 12 true o o2) outs1 names.
Proof.
  intros T SP S1. rewrite (target_name f T). destruct (extract_places fuel a infile mesh p els outs ls RM EL RO NE NL LB PL) as (outs' & E & F).
  destruct (with_places_sheets t n p ls outs outs' F SH EQ labelled CO) as [SH' EQ'].
  assert (ONE : forall o, In o outs' -> exists recs o2, csv_write [o] = Ok recs /\
     (forall b len, read_output None b len (lines (concat recs)) = Ok [o2]) /\ comes_back $"csv" 8 12 true o o2).
  { intros o I. destruct (csv_api t n [o] (one_sheet o outs' SH' I)) as (recs & o2 & W & R & B).
    - constructor; auto. unfold no_equal_sign in EQ'. rewrite Forall_forall in EQ'. auto.
    - inversion B as [|? y ? l2 B1 B2]; subst. inversion B2; subst. eauto. }
  destruct (write_steps_ok (xfilename a) outs' 0 d) as (d1 & W & O & N).
  { intros o I. destruct (ONE o I) as (recs & o2 & W & _). exists (concat recs). unfold write_output. now rewrite W. }
  exists d1, outs', (map (step_name (xfilename a)) (seq 0 (List.length outs'))). split; [|split; [auto|split; [|split; [|split]]]].
  - unfold extract. rewrite FM, DI, DM, E. cbn [is_csv negb]. rewrite andb_false_r, SP. cbn [negb orb]. rewrite <- (f2_length F).
    apply Nat.eqb_neq in S1. rewrite S1. exact W.
  - intros i g I. rewrite nth_error_map in I. destruct (nth_error (seq 0 (List.length outs')) i) as [i'|] eqn:Q; [|discriminate].
    cbn in I. injection I as <-. assert (L : (i < List.length outs')%nat) by (apply nth_error_Some_lt in Q; now rewrite seq_length in Q).
    apply nth_error_nth with (d := 0%nat) in Q. rewrite seq_nth in Q by exact L. subst i'. apply step_name_file.
  - apply FinFun.Injective_map_NoDup; [|apply seq_NoDup]. intros i j. apply step_name_inj.
  - intros m M. apply O. intros j L X. apply M. rewrite X. apply in_map, in_seq. lia.
  - apply F2_places. intros j o I. destruct (N j o I) as (text & W1 & W2). destruct (ONE o (nth_error_In _ _ I)) as (recs & o2 & V & R & B).
    unfold write_output in W1. rewrite V in W1. cbn [bind] in W1. injection W1 as <-. eauto.
Qed.
End Command.

(** ** Refusals *)
Theorem extract_missing fuel d a infile mesh p els outs o ls :
  x_connection a && negb (is_csv (x_format a)) = false ->
  d (x_infile a) = Some infile -> d (x_mesh a) = Some mesh ->
  read_text fuel (x_length a) mesh = Ok p -> dget #"elements" p = Some (PDict els) ->
  read_output None (x_connection a) (option_map Z.to_nat (x_length a)) (lines infile) = Ok (outs ++ [o]) ->
  o_format o = $"tough" -> o_labels o = Some ls ->
  Forall (fun l => label_kind (x_connection a) l /\
                   Forall (fun s => dget (KS s) els = None \/ exists c, center_at p s c) l) ls ->
  (exists l s, In l ls /\ In s l /\ dget (KS s) els = None) ->
  extract fuel d a = (Err ValueError, d).
Proof.
  intros CF DI DM RM EL RO FO LO H (l & s & Il & Is & M). unfold extract. rewrite CF, DI, DM. unfold located. rewrite RM. cbn [bind].
  rewrite EL. cbn [as_dict bind]. rewrite RO. cbn [bind].
  assert (L : last_output (outs ++ [o]) = Some o).
  { clear. induction outs as [|x outs IH]; [reflexivity|]. cbn [app last_output]. destruct (outs ++ [o]) eqn:E; [now destruct outs|]. exact IH. }
  rewrite L, FO, LO. change (guard (streqb $"tough" $"tough") ValueError) with (@Ok unit tt). cbn [bind].
  assert (C : forall s, dget (KS s) els = None \/ (exists c, center_at p s c) -> center_of els s = Err KeyError \/ exists c, center_of els s = Ok c).
  { intros q [N|(c & Hc)]; [left|right; exists c; now apply center_found with p]. unfold center_of, dgetE. now rewrite N. }
  assert (C0 : center_of els s = Err KeyError) by (unfold center_of, dgetE; now rewrite M).
  assert (P : mapM (point_of els (x_connection a)) ls = Err KeyError).
  { rewrite Forall_forall in H. apply mapM_err.
    - intros q Q. destruct (H q Q) as [K F]. unfold label_kind in K. unfold point_of. destruct (x_connection a).
      + destruct q as [|s1 [|s2 [|s3 q]]]; try discriminate. inversion_clear F as [|? ? F1 F']. inversion_clear F' as [|? ? F2 _].
        cbn [mapM]. destruct (C s1 F1) as [-> | (c1 & ->)]; [now left|]. cbn [bind]. destruct (C s2 F2) as [-> | (c2 & ->)]; [now left|]. right. eexists. reflexivity.
      + destruct q as [|s1 [|s2 q]]; try discriminate. inversion_clear F as [|? ? F1 _]. auto.
    - exists l. split; auto. destruct (H l Il) as [K F]. unfold label_kind in K. unfold point_of. destruct (x_connection a).
      + destruct l as [|s1 [|s2 [|s3 l]]]; try discriminate. inversion_clear F as [|? ? F1 F']. inversion_clear F' as [|? ? F2 _].
        cbn [mapM]. destruct (C s1 F1) as [-> | (c1 & E1)]; [reflexivity|]. rewrite E1. cbn [bind]. destruct Is as [->|[->|[]]]; [congruence|]. now rewrite C0.
      + destruct l as [|s1 [|s2 l]]; try discriminate. destruct Is as [->|[]]. exact C0. }
  unfold points_of. rewrite P. reflexivity.
Qed.

Theorem extract_flows fuel d a : x_connection a = true -> x_format a <> XCsv -> extract fuel d a = (Err ValueError, d).
Proof. intros C F. unfold extract. rewrite C. destruct (x_format a); [congruence|reflexivity|reflexivity]. Qed.

(** ** Findings *)
Theorem split_format fuel d infile mesh f ll fmt text1 text2 :
  d infile = Some text1 -> d mesh = Some text2 ->
  (forall outs, located fuel (XArgs infile mesh (Some f) fmt ll true false) text1 text2 = Ok outs -> List.length outs <> 1%nat) ->
  extract fuel d (XArgs infile mesh (Some f) fmt ll true false) = extract fuel d (XArgs infile mesh (Some f) XCsv ll true false).
Proof.
  intros DI DM H. unfold extract. cbn [x_connection x_format x_infile x_mesh x_split andb negb orb]. rewrite DI, DM.
  assert (L : located fuel (XArgs infile mesh (Some f) fmt ll true false) text1 text2 =
              located fuel (XArgs infile mesh (Some f) XCsv ll true false) text1 text2) by reflexivity.
  rewrite <- L. destruct (located _ _ _ _) as [outs|e] eqn:E; [|reflexivity]. specialize (H outs eq_refl). apply Nat.eqb_neq in H. rewrite H. reflexivity.
Qed.
Theorem extract_length fuel d a z infile mesh p els outs t :
  x_connection a && negb (is_csv (x_format a)) = false ->
  d (x_infile a) = Some infile -> d (x_mesh a) = Some mesh -> x_length a = Some z -> (0 < z)%Z ->
  read_text fuel (x_length a) mesh = Ok p -> dget #"elements" p = Some (PDict els) ->
  get_output_type (lines infile) = Ok (t, FTough) ->
  read_output None (x_connection a) None (lines infile) = Ok outs ->
  (exists o l r, In o outs /\ o_labels o = Some (l :: r)) ->
  extract fuel d a = (Err UnboundLocalError, d).
Proof.
  intros CF DI DM XL Z0 RM EL GT RO H. unfold extract. rewrite CF, DI, DM. unfold located. rewrite RM. cbn [bind]. rewrite EL. cbn [as_dict bind].
  unfold read_output in *. rewrite GT in *. cbn [bind] in *. rewrite XL. cbn [option_map].
  replace (Z.to_nat z) with (S (Z.to_nat (z - 1))) by lia.
  rewrite (explicit_length _ _ _ _ _ outs RO H). reflexivity.
Qed.
