(** Reading binary FLAC3D grids of other programs. *)
From Coq Require Import String Ascii Arith ZArith Bool Permutation Lia List.
From Verif Require Import Base.Str Base.Digits Base.Flt Model.Py Model.Numpy Model.Mesh Model.F3grid
  Spec.MeshCells Spec.F3grid Proofs.F3Bytes Proofs.F3Build Proofs.BlocksProof Proofs.UcdFileProof Spec.F3File Proofs.F3FileProof Proofs.F3FileRead.
From Verif Require Proofs.MaterialProof.
Import ListNotations.
Local Open Scope nat_scope.

Lemma value_little bs : value_of bs = of_little bs.
Proof. induction bs as [|c bs IH]; [reflexivity|]. cbn [value_of of_little]. rewrite IH. unfold code. lia. Qed.
Lemma take_all bs n r : List.length bs = n -> take_bytes n (bs ++ r) = Ok (bs, r).
Proof.
  intros L. unfold take_bytes. rewrite app_length. replace (n <=? List.length bs + List.length r) with true by (symmetry; apply Nat.leb_le; lia). cbn [guard bind].
  rewrite firstn_app, skipn_app, <- L, firstn_all, skipn_all, Nat.sub_diag. cbn [firstn skipn app]. now rewrite app_nil_r.
Qed.
Lemma get_word n z bs r : word_of n z bs -> get_u n (bs ++ r) = Ok (z, r).
Proof. intros (L & V). unfold get_u. rewrite (take_all _ _ _ L). cbn [bind fst snd]. now rewrite <- value_little, V. Qed.
Lemma double_read x bs r : double_of x bs -> get_f64 (bs ++ r) = Ok (x, r).
Proof.
  intros (z & D & W). unfold get_f64. rewrite (get_word _ _ _ _ W). cbn [bind fst snd]. f_equal. f_equal. clear W.
  destruct D as [s m R|s e m E R|s|s m R].
  - replace ((if s then 2 ^ 63 else 0) + m)%Z with ((if s then 2 ^ 63 else 0) + (0 * 2 ^ 52 + m))%Z by lia. rewrite of_bits_pack by lia. reflexivity.
  - rewrite <- Z.add_assoc, of_bits_pack by lia. destruct (Z.eqb_spec e 2047); [lia|]. destruct (Z.eqb_spec e 0); [lia|]. f_equal. lia.
  - replace ((if s then 2 ^ 63 else 0) + 2047 * 2 ^ 52)%Z with ((if s then 2 ^ 63 else 0) + (2047 * 2 ^ 52 + 0))%Z by lia. rewrite of_bits_pack by lia. reflexivity.
  - rewrite <- Z.add_assoc, of_bits_pack by lia. change (2047 =? 2047)%Z with true. cbn iota. destruct (Z.eqb_spec m 0); [lia|reflexivity].
Qed.
Lemma many_read {A} (get : str -> res (A * str)) (ok : A -> str -> Prop) : (forall x bs r, ok x bs -> get (bs ++ r) = Ok (x, r)) ->
  forall xs bs r, Forall2 ok xs bs -> get_many get (List.length xs) (concat bs ++ r) = Ok (xs, r).
Proof.
  intros H xs bs r F. induction F as [|x b xs bs O F IH]; [reflexivity|]. cbn [List.length get_many concat]. rewrite <- app_assoc, (H x b _ O). cbn [bind fst snd]. now rewrite IH.
Qed.
Lemma times_read {A} (I : list A -> state -> Prop) (ok : A -> str -> Prop) rd all :
  (forall front x rest bs s r, all = front ++ x :: rest -> ok x bs -> I front s -> exists s', rd (s, bs ++ r) = Ok (s', r) /\ I (front ++ [x]) s') ->
  forall rest bs front s r, all = front ++ rest -> Forall2 ok rest bs -> I front s -> exists s', times (List.length rest) rd (s, concat bs ++ r) = Ok (s', r) /\ I all s'.
Proof.
  intros H rest bs front s r E F. revert front s E. induction F as [|x b rest bs O F IH]; intros front s E J.
  - exists s. rewrite app_nil_r in E. subst. split; auto.
  - cbn [List.length times concat]. rewrite <- app_assoc. destruct (H front x rest b s (concat bs ++ r) E O J) as (s1 & R & J1). rewrite R. cbn [bind].
    apply (IH (front ++ [x])); auto. now rewrite <- app_assoc.
Qed.
Lemma ascii_ok s : ascii_name s -> ascii_only s = true.
Proof. intros H. unfold ascii_only. apply forallb_forall. intros c I. specialize (H c I). apply Z.ltb_lt. unfold code. lia. Qed.
Lemma name_read s bs r : name_bytes s bs -> get_name (bs ++ r) = Ok (s, r).
Proof.
  intros (n & -> & W & A). unfold get_name. rewrite <- app_assoc, (get_word _ _ _ _ W). cbn [bind fst snd]. rewrite Nat2Z.id, (take_all s _ r eq_refl). cbn [bind fst].
  rewrite (ascii_ok _ A). reflexivity.
Qed.
Lemma point_read s p bs r : point_bytes p bs -> binary_read_point (s, bs ++ r) = Ok (add_point s (fst p) (snd p), r).
Proof.
  intros (w & xs & -> & W & L & F). unfold binary_read_point. cbn [fst snd]. rewrite <- app_assoc, (get_word _ _ _ _ W). cbn [bind fst snd].
  assert (L' : List.length (snd p) = 3) by (rewrite <- L; exact (MaterialProof.Forall2_length _ _ _ F)).
  pose proof (many_read get_f64 double_of double_read (snd p) xs r F) as M. rewrite L' in M. rewrite M. reflexivity.
Qed.
Lemma is_b7 b t ty vs us : in_f3 b t ty vs us -> streqb t $"B7" = (Z.of_nat (List.length us) =? 7)%Z.
Proof. destruct 1; reflexivity. Qed.
Lemma cell_read P C G s c b bs r : cell_bytes P b c bs -> inv P C G s -> NoDup (map fst P) -> unique_numbers (C ++ [c]) -> members_ok C G ->
  exists s', binary_read_cell (flag_of b) (s, bs ++ r) = Ok (s', r) /\ inv P (C ++ [c]) G s'.
Proof.
  intros (w & n & ws & t & us & -> & B & W & N & U & F) I NP NC MO. subst b.
  destruct (in_f3_row _ _ _ _ _ (c_number c) U) as (row & R & IF). rewrite (is_b7 _ _ _ _ _ U) in R.
  assert (X : exists ids, Forall2 (word_of 4) ids ws /\ Forall2 (fun z v => exists p, nth_error P v = Some p /\ fst p = z) ids us /\ List.length ids = List.length us).
  { clear - F. induction F as [|w v ws us (p & E & W) F (ids & A & B & L)]; [exists []; repeat split; constructor|]. exists (fst p :: ids). split; [constructor; auto|]. split; [constructor; eauto|]. cbn. now rewrite L. }
  destruct X as (ids & X1 & X2 & X3).
  destruct (inv_cell P C G s c us _ ids row I NP NC MO X2 R) as (s' & AC & I'); [destruct c; exact IF|].
  exists s'. split; auto. unfold binary_read_cell. cbn [fst snd]. rewrite <- !app_assoc, (get_word _ _ _ _ W). cbn [bind fst snd]. rewrite (get_word _ _ _ _ N). cbn [bind fst snd].
  rewrite Nat2Z.id, <- X3, (many_read (get_u 4) (word_of 4) (get_word 4) ids ws r X1). cbn [bind fst snd]. rewrite X3, AC. reflexivity.
Qed.
Lemma group_read P C G s g b bs r : group_bytes C b g bs -> inv P C G s -> unique_numbers C -> NoDup (map g_name (G ++ [g])) -> slots_ok (G ++ [g]) -> members_ok C G ->
  exists s', binary_read_group (flag_of b) (s, bs ++ r) = Ok (s', r) /\ inv P C (G ++ [g]) s' /\ members_ok C (G ++ [g]).
Proof.
  intros (name & slot & n & ws & -> & B & N1 & N2 & N & F) I NC NG SL MO. subst b.
  assert (X : exists ids, Forall2 (word_of 4) ids ws /\ Forall2 (number_of_cell C (g_body g)) ids (g_members g) /\ List.length ids = List.length (g_members g)).
  { clear - F. induction F as [|w v ws us (z & W & E) F (ids & A & B & L)]; [exists []; repeat split; constructor|]. exists (z :: ids). split; [constructor; auto|]. split; [constructor; auto|]. cbn. now rewrite L. }
  destruct X as (ids & X1 & X2 & X3).
  destruct (inv_group P C G s g ids I NC NG) as (s' & AG & I'); auto.
  { intros g' J Q. apply SL; auto; apply in_or_app; [left; auto|right; now left]. }
  exists s'. split; [|split; [auto|eapply members_group; eauto]]. unfold binary_read_group. cbn [fst snd]. rewrite <- !app_assoc, (name_read _ _ _ N1). cbn [bind fst snd].
  rewrite (name_read _ _ _ N2). cbn [bind fst snd]. rewrite (get_word _ _ _ _ N). cbn [bind fst snd].
  rewrite Nat2Z.id, <- X3, (many_read (get_u 4) (word_of 4) (get_word 4) ids ws r X1). cbn [bind fst snd]. rewrite AG. reflexivity.
Qed.
Lemma snoc_split {A} (a front : list A) x rest : a ++ front ++ x :: rest = ((a ++ front) ++ [x]) ++ rest.
Proof. now rewrite <- !app_assoc. Qed.
Lemma section_read P C G s b cs gs bs r : section_bytes P C b cs gs bs -> inv P C G s -> members_ok C G ->
  NoDup (map fst P) -> unique_numbers (C ++ cs) -> NoDup (map g_name (G ++ gs)) -> slots_ok (G ++ gs) ->
  exists s', binary_read_section (flag_of b) (s, bs ++ r) = Ok (s', r) /\ inv P (C ++ cs) (G ++ gs) s' /\ members_ok (C ++ cs) (G ++ gs).
Proof.
  intros (n & cbs & k & gbs & -> & N & CB & K & GB) I MO NP NC NG SL. unfold binary_read_section. cbn [fst snd]. rewrite <- !app_assoc, (get_word _ _ _ _ N). cbn [bind fst snd]. rewrite Nat2Z.id.
  destruct (times_read (fun done s => inv P (C ++ done) G s /\ members_ok (C ++ done) G) (cell_bytes P b) (binary_read_cell (flag_of b)) cs) with (rest := cs) (bs := cbs) (front := @nil cell) (s := s) (r := k ++ concat gbs ++ r)
    as (s1 & R1 & I1 & M1); auto; [| |].
  { intros front x rest bs' s0 r0 E O (I0 & M0). rewrite E, snoc_split in NC. destruct (cell_read P (C ++ front) G s0 x b bs' r0 O I0 NP) as (s' & R & I'); auto.
    { unfold unique_numbers in *. rewrite map_app in NC. eapply nodup_prefix; eauto. }
    exists s'. rewrite app_assoc. split; auto. split; auto. now apply members_more. }
  { rewrite app_nil_r. auto. }
  match goal with |- context [times ?a ?b ?c] => assert (R1' : times a b c = Ok (s1, k ++ concat gbs ++ r)) by exact R1 end. rewrite R1'. cbn [bind fst snd]. rewrite (get_word _ _ _ _ K). cbn [bind fst snd]. rewrite Nat2Z.id.
  destruct (times_read (fun done s => inv P (C ++ cs) (G ++ done) s /\ members_ok (C ++ cs) (G ++ done)) (group_bytes (C ++ cs) b) (binary_read_group (flag_of b)) gs) with (rest := gs) (bs := gbs) (front := @nil group) (s := s1) (r := r)
    as (s2 & R2 & I2 & M2); auto; [| |].
  { intros front x rest bs' s0 r0 E O (I0 & M0). rewrite E, snoc_split in NG, SL. destruct (group_read P (C ++ cs) (G ++ front) s0 x b bs' r0 O I0 NC) as (s' & R & I' & M'); auto.
    { rewrite map_app in NG. eapply nodup_prefix; eauto. }
    { intros g g' J J'. apply SL; apply in_or_app; now left. }
    exists s'. rewrite app_assoc. auto. }
  { rewrite app_nil_r. auto. }
  exists s2. auto.
Qed.
Lemma of_points P : points_in (map Gridpoint P) = P /\ cells_in (map Gridpoint P) = [] /\ groups_in (map Gridpoint P) = [].
Proof. unfold points_in, cells_in, groups_in. induction P as [|p P (A & B & C)]; cbn [map flat_map app]; auto. rewrite A, B, C. auto. Qed.
Lemma of_cells C : points_in (map Element C) = [] /\ cells_in (map Element C) = C /\ groups_in (map Element C) = [].
Proof. unfold points_in, cells_in, groups_in. induction C as [|p P (A & B & C)]; cbn [map flat_map app]; auto. rewrite A, B, C. auto. Qed.
Lemma of_groups G : points_in (map Members G) = [] /\ cells_in (map Members G) = [] /\ groups_in (map Members G) = G.
Proof. unfold points_in, cells_in, groups_in. induction G as [|p P (A & B & C)]; cbn [map flat_map app]; auto. rewrite A, B, C. auto. Qed.
Lemma parts_in a b : points_in (a ++ b) = points_in a ++ points_in b /\ cells_in (a ++ b) = cells_in a ++ cells_in b /\ groups_in (a ++ b) = groups_in a ++ groups_in b.
Proof. unfold points_in, cells_in, groups_in. rewrite !flat_map_app. auto. Qed.

Theorem binary_grid_read l file : binary_grid l file -> distinct l -> grouped Solid l -> grouped Surface l -> (groups_in l <> [] -> cells_in l <> []) ->
  exists m, read file = Ok m /\ c_points m = map snd (points_in l) /\ flat (c_cells m) = map (fun c => (c_type c, c_nodes c)) (cells_in l) /\ merged (c_cells m) /\ c_field m = fields_of l /\
    (groups_in l = [] -> c_groups m = None) /\
    (groups_in l <> [] -> exists gs, c_groups m = Some gs /\ map (@List.length nat) gs = map (fun b => List.length (snd b)) (c_cells m) /\
      forall i c, nth_error (cells_in l) i = Some c -> exists n, nth_error (concat gs) i = Some n /\ number_of_group l i c n).
Proof.
  intros (P & zs & zg & fs & fg & head & n & pbs & z & f & rest & EL & EF & LH & NUL & N & PB & SZ & SF) (NP & NC & NG & SL) GZ GF NE.
  assert (X : points_in l = P /\ cells_in l = zs ++ fs /\ groups_in l = zg ++ fg).
  { rewrite EL. repeat match goal with |- context [points_in (?a ++ ?b)] => destruct (parts_in a b) as (-> & -> & ->) end.
    destruct (of_points P) as (-> & -> & ->), (of_cells zs) as (-> & -> & ->), (of_groups zg) as (-> & -> & ->), (of_cells fs) as (-> & -> & ->), (of_groups fg) as (-> & -> & ->).
    rewrite !app_nil_r. auto. }
  destruct X as (X1 & X2 & X3). 
  assert (S1 : exists s, read_binary file = Ok s /\ inv (points_in l) (cells_in l) (groups_in l) s).
  { rewrite X1, X2, X3 in *. unfold read_binary. rewrite EF, (take_all head 8 _ LH). cbn [bind snd]. rewrite (get_word _ _ _ _ N). cbn [bind fst snd]. rewrite Nat2Z.id.
    destruct (times_read (fun done s => inv done [] [] s) point_bytes binary_read_point P) with (rest := P) (bs := pbs) (front := @nil gridpoint) (s := start) (r := z ++ f ++ rest) as (s1 & R1 & I1); auto.
    { intros front [i p] rest' bs' s0 r0 E O I0. rewrite (point_read _ _ _ _ O). exists (add_point s0 i p). split; [reflexivity|]. apply inv_point; auto.
      pose proof (snoc_split [] front (i, p) rest') as Q. cbn [app] in Q. unfold gridpoint in *. rewrite E, Q, map_app in NP. eapply nodup_prefix. exact NP. }
    { exact start_inv. }
    match goal with |- context [times ?a ?b ?c] => assert (R1' : times a b c = Ok (s1, z ++ f ++ rest)) by exact R1 end. rewrite R1'. cbn [bind].
    destruct (section_read P [] [] s1 Solid zs zg z (f ++ rest) SZ I1) as (s2 & R2 & I2 & M2); cbn [app]; auto.
    { intros g i []. }
    { unfold unique_numbers. rewrite map_app in NC. eapply nodup_prefix; eauto. }
    { rewrite map_app in NG. eapply nodup_prefix; eauto. }
    { intros g g' J J'. apply SL; apply in_or_app; now left. }
    cbn [flag_of app] in *. rewrite R2. cbn [bind].
    destruct (section_read P zs zg s2 Surface fs fg f rest SF I2 M2) as (s3 & R3 & I3 & M3); auto. cbn [flag_of] in R3. rewrite R3. cbn [bind fst]. exists s3. auto. }
  destruct S1 as (s & RB & I). unfold read.
  assert (B : existsb (Ascii.eqb (ascii_of_nat 0)) (firstn 8 file) = true).
  { apply existsb_exists. exists (ascii_of_nat 0). split; [|apply Ascii.eqb_refl]. rewrite EF, <- LH, firstn_app, firstn_all. apply in_or_app. now left. }
  rewrite B, RB. cbn [bind]. now apply (finish_file (points_in l) (cells_in l) (groups_in l)).
Qed.
