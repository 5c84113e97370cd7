(** Reading back a binary FLAC3D grid. *)
From Coq Require Import String Ascii Arith ZArith Bool Lia List.
From Verif Require Import Base.Str Base.Digits Base.Flt Model.Py Model.Numpy Model.Mesh Model.F3grid Spec.MeshCells Spec.F3grid
  Proofs.F3Bytes Proofs.F3Build.
Import ListNotations.
Local Open Scope nat_scope.

Lemma concatM_ok l s : concatM l = Ok s -> exists ss, l = map Ok ss /\ s = concat ss.
Proof.
  unfold concatM. revert s. induction l as [|x l IH]; intros s; cbn [mapM bind].
  - intros H. exists []. split; auto. cbn [concat] in *. congruence.
  - destruct x as [x|]; cbn [bind]; [|discriminate]. destruct (mapM (fun r => r) l) as [ss'|] eqn:E'; cbn [bind]; [|discriminate].
    intros H. destruct (IH _ eq_refl) as (ss & -> & C). exists (x :: ss). split; auto. cbn [concat]. rewrite <- C. cbn [concat] in H. congruence.
Qed.
Lemma map_Ok_cons x l ss : x :: l = map (@Ok str) ss -> exists s ss', x = Ok s /\ ss = s :: ss' /\ l = map Ok ss'.
Proof. destruct ss as [|s ss]; cbn [map]; [discriminate|]. intros H. exists s, ss. repeat split; congruence. Qed.
Lemma map_Ok_app l1 l2 ss : l1 ++ l2 = map (@Ok str) ss -> exists s1 s2, ss = s1 ++ s2 /\ l1 = map Ok s1 /\ l2 = map Ok s2.
Proof.
  revert ss. induction l1 as [|x l1 IH]; intros ss H; cbn [app] in H.
  - exists [], ss. auto.
  - apply map_Ok_cons in H as (s & ss' & -> & -> & H). apply IH in H as (s1 & s2 & -> & -> & ->). exists (s :: s1), s2. auto.
Qed.
Lemma map_Ok_map {A} (put : A -> res str) l ss : map put l = map Ok ss -> mapM put l = Ok ss.
Proof.
  revert ss. induction l as [|x l IH]; intros ss H; cbn [map] in H; [symmetry in H; apply map_eq_nil in H as ->; reflexivity|].
  apply map_Ok_cons in H as (s & ss' & E & -> & H). cbn [mapM]. rewrite E. cbn [bind]. now rewrite (IH ss' H).
Qed.
Lemma times_fold {A} (put : A -> res str) (step : state -> A -> res state) (rd : state * str -> res (state * str)) l :
  (forall x t st st' r, In x l -> put x = Ok t -> step st x = Ok st' -> rd (st, t ++ r) = Ok (st', r)) ->
  forall st st' ts r, mapM put l = Ok ts -> foldM step st l = Ok st' -> times (List.length l) rd (st, concat ts ++ r) = Ok (st', r).
Proof.
  induction l as [|x l IH]; intros H st st' ts r M F; cbn [mapM foldM List.length times] in *.
  - assert (ts = []) as -> by congruence. assert (st' = st) as -> by congruence. reflexivity.
  - destruct (put x) as [t|] eqn:P; cbn [bind] in M; [|discriminate]. destruct (mapM put l) as [ts'|] eqn:M'; cbn [bind] in M; [|discriminate].
    assert (ts = t :: ts') as -> by congruence. destruct (step st x) as [s1|] eqn:E; cbn [bind] in F; [|discriminate].
    cbn [concat]. rewrite <- app_assoc. rewrite (H x t st s1 _ (or_introl eq_refl) P E). cbn [bind]. apply IH; auto.
    intros. eapply H; eauto. now right.
Qed.
Lemma read_point i p t st r : Forall (fun x => is_f64 x = true) p -> binary_point (i, p) = Ok t ->
  binary_read_point (st, t ++ r) = Ok (add_point st (pid i) p, r).
Proof.
  unfold binary_point. cbn [fst snd]. intros F H. destruct (Nat.eqb_spec (List.length p) 3) as [L|]; cbn [guard bind] in H; [|discriminate].
  apply concatM_ok in H as (ss & E & ->). apply map_Ok_cons in E as (s & ss' & E1 & -> & E2). unfold binary_read_point. cbn [fst snd concat].
  rewrite <- app_assoc. unfold of_nat in E1. rewrite (u32_read _ _ _ E1). cbn [bind fst snd].
  apply map_Ok_map in E2. rewrite <- L.
  rewrite (get_many_read (fun x => Ok (f64 x)) get_f64 (fun x => is_f64 x = true) (fun x t s Hx Et => ltac:(assert (t = f64 x) as -> by congruence; now apply f64_read)) p ss' r F E2).
  reflexivity.
Qed.
Lemma nats_read l ts r : mapM of_nat l = Ok ts -> get_many (get_u 4) (List.length l) (concat ts ++ r) = Ok (map Z.of_nat l, r).
Proof.
  intros M. rewrite <- (map_length Z.of_nat). 
  apply (get_many_read u32 (get_u 4) (fun _ => True)); [intros; now apply u32_read | now apply Forall_forall|].
  rewrite <- M. clear. induction l as [|n l IH]; cbn [map mapM]; auto. unfold of_nat at 1. destruct (u32 (Z.of_nat n)); cbn [bind]; auto. now rewrite IH.
Qed.
Lemma read_cell f i row t st st' r : List.length row <> 7 -> binary_cell (i, row) = Ok t -> add_cell f st (pid i) (map pid row) false = Ok st' ->
  binary_read_cell f (st, t ++ r) = Ok (st', r).
Proof.
  unfold binary_cell. cbn [fst snd]. intros N7 H A. apply concatM_ok in H as (ss & E & ->). apply map_Ok_cons in E as (s1 & ss1 & E1 & -> & E).
  apply map_Ok_cons in E as (s2 & ss2 & E2 & -> & E). unfold binary_read_cell. cbn [fst snd concat]. rewrite <- !app_assoc.
  unfold of_nat in E1, E2. rewrite (u32_read _ _ _ E1). cbn [bind fst snd]. rewrite (u32_read _ _ _ E2). cbn [bind fst snd].
  rewrite Nat2Z.id. rewrite <- (map_map S of_nat) in E. apply map_Ok_map in E. rewrite <- (map_length S row) at 1. rewrite (nats_read _ _ _ E). cbn [bind fst snd].
  rewrite map_map. destruct (Z.eqb_spec (Z.of_nat (List.length row)) 7); [lia|]. change (Z.of_nat (S i)) with (pid i). 
  change (map (fun x => Z.of_nat (S x)) row) with (map pid row). rewrite A. reflexivity.
Qed.
Lemma name_read name t r : ascii_only name = true -> u16 (Z.of_nat (List.length name)) = Ok t -> get_name (t ++ name ++ r) = Ok (name, r).
Proof.
  intros A E. unfold get_name. rewrite (u16_read _ _ _ E). cbn [bind fst snd]. rewrite Nat2Z.id. unfold take_bytes.
  rewrite app_length. replace (List.length name <=? List.length name + List.length r) with true by (symmetry; apply Nat.leb_le; lia). cbn [guard bind fst snd].
  rewrite firstn_app, Nat.sub_diag, firstn_all, firstn_O, app_nil_r. rewrite skipn_app, Nat.sub_diag, skipn_all2 by lia. cbn [app skipn]. rewrite A. reflexivity.
Qed.
Lemma read_group f g t st st' r : binary_group g = Ok t -> add_group f st (fst g) $"Default" (map Z.of_nat (snd g)) = Ok st' ->
  binary_read_group f (st, t ++ r) = Ok (st', r).
Proof.
  unfold binary_group. intros H A. destruct (ascii_only (fst g)) eqn:AO; cbn [guard bind] in H; [|discriminate].
  apply concatM_ok in H as (ss & E & ->). apply map_Ok_cons in E as (s1 & ss1 & E1 & -> & E). apply map_Ok_cons in E as (s2 & ss2 & E2 & -> & E).
  assert (s2 = fst g) as -> by congruence. apply map_Ok_cons in E as (s3 & ss3 & E3 & -> & E). apply map_Ok_cons in E as (s4 & ss4 & E4 & -> & E).
  assert (s4 = $"Default") as -> by congruence. apply map_Ok_cons in E as (s5 & ss5 & E5 & -> & E).
  unfold binary_read_group. cbn [fst snd concat]. rewrite <- !app_assoc. rewrite (name_read _ _ _ AO E1). cbn [bind fst snd].
  change 7%Z with (Z.of_nat (List.length $"Default")) in E3. rewrite (name_read $"Default" _ _ eq_refl E3). cbn [bind fst snd].
  unfold of_nat in E5. rewrite (u32_read _ _ _ E5). cbn [bind fst snd]. rewrite Nat2Z.id. apply map_Ok_map in E. rewrite (nats_read _ _ _ E). cbn [bind fst snd].
  rewrite A. reflexivity.
Qed.
Lemma flat_all cells : all_cells cells = flat cells.
Proof. unfold all_cells, flat. now rewrite flat_map_concat_map. Qed.
Lemma flat_n cells : n_cells cells = List.length (flat cells).
Proof. unfold flat, n_cells. induction cells as [|[t rows] cells IH]; auto. cbn [flat_map map list_sum fst snd]. rewrite app_length, map_length. cbn [list_sum fold_right]. now rewrite <- IH. Qed.
Lemma counted_rows a blocks : map (fun ic => binary_cell (fst ic, snd (snd ic))) (counted a blocks) =
  map binary_cell (combine (seq a (List.length (flat blocks))) (map snd (flat blocks))).
Proof.
  unfold counted. rewrite flat_all. generalize (flat blocks). intros l. revert a. induction l as [|x l IH]; intros a; auto. cbn [List.length seq combine map fst snd]. now rewrite IH.
Qed.
Lemma section_read f pts cells mat fd blocks groups s st st1 st2 r :
  translated f pts cells = Ok blocks -> groups_of f cells mat fd = Ok groups -> binary_section f pts cells mat fd = Ok s ->
  Forall (fun row => List.length row <> 7) (map snd (flat blocks)) ->
  feed_cells f st (combine (seq (first_id f cells) (List.length (flat blocks))) (map snd (flat blocks))) = Ok st1 ->
  feed_groups f $"Default" st1 groups = Ok st2 -> binary_read_section f (st, s ++ r) = Ok (st2, r).
Proof.
  intros T G H N7 FC FG. unfold binary_section in H. rewrite T, G in H. cbn [bind] in H. apply concatM_ok in H as (ss & E & ->).
  apply map_Ok_cons in E as (s1 & ss1 & E1 & -> & E). apply map_Ok_app in E as (sc & sg & -> & EC & E). apply map_Ok_cons in E as (s2 & ss2 & E2 & -> & E).
  rewrite counted_rows in EC. apply map_Ok_map in EC. apply map_Ok_map in E. unfold of_nat in E1, E2.
  unfold binary_read_section. cbn [fst snd concat]. rewrite concat_app. cbn [concat]. rewrite <- !app_assoc. rewrite (u32_read _ _ _ E1). cbn [bind fst snd].
  rewrite Nat2Z.id, flat_n.
  pose proof (times_fold binary_cell (fun s ic => add_cell f s (pid (fst ic)) (map pid (snd ic)) false) (binary_read_cell f)
    (combine (seq (first_id f cells) (List.length (flat blocks))) (map snd (flat blocks)))) as TC.
  rewrite combine_length, seq_length, map_length, Nat.min_id in TC. rewrite (TC) with (st' := st1) (ts := sc) (2 := EC) (3 := FC).
  2:{ intros [i row] t s0 s0' r0 I P A. apply (read_cell f i row); auto. rewrite Forall_forall in N7. apply N7. now apply in_combine_r in I. }
  cbn [bind fst snd]. rewrite (u32_read _ _ _ E2). cbn [bind fst snd]. rewrite Nat2Z.id.
  apply (times_fold binary_group (fun s g => add_group f s (fst g) $"Default" (map Z.of_nat (snd g))) (binary_read_group f)); auto.
  intros g t s0 s0' r0 _ P A. now apply (read_group f g).
Qed.
Lemma fold_Ok {A B} (g : A -> B -> A) l a : foldM (fun a b => Ok (g a b)) a l = Ok (fold_left g l a).
Proof. revert a. induction l as [|b l IH]; intros a; cbn [foldM fold_left bind]; auto. Qed.
Theorem binary_feed version now m file zb fb zg fg st :
  write true version now m = Ok file -> Forall (Forall (fun x => is_f64 x = true)) (g_points m) ->
  translated Zone (g_points m) (g_cells m) = Ok zb -> translated Face (g_points m) (g_cells m) = Ok fb ->
  groups_of Zone (g_cells m) (g_material m) (g_field m) = Ok zg -> groups_of Face (g_cells m) (g_material m) (g_field m) = Ok fg ->
  first_id Face (g_cells m) = List.length (flat zb) ->
  Forall (fun row => List.length row <> 7) (map snd (flat zb)) -> Forall (fun row => List.length row <> 7) (map snd (flat fb)) ->
  feed $"Default" (g_points m) (map snd (flat zb)) zg (map snd (flat fb)) fg = Ok st ->
  read file = finish st.
Proof.
  intros W P TZ TF GZ GF FI NZ NF FD. unfold write in W. destruct (guard _ ValueError); cbn [bind] in W; [|discriminate].
  destruct (concatM [u32 1375135718; u32 3]) as [head|] eqn:EH; cbn [bind] in W; [|discriminate].
  destruct (concatM (of_nat (List.length (g_points m)) :: map binary_point (numbered (g_points m)))) as [pts|] eqn:EP; cbn [bind] in W; [|discriminate].
  destruct (binary_section Zone _ _ _ _) as [zones|] eqn:EZ; cbn [bind] in W; [|discriminate].
  destruct (binary_section Face _ _ _ _) as [faces|] eqn:EF; cbn [bind] in W; [|discriminate].
  assert (file = head ++ pts ++ zones ++ faces ++ []) as -> by (rewrite app_nil_r; congruence). clear W.
  assert (EH' : head = little 4 1375135718 ++ little 4 3 ++ []).
  { apply concatM_ok in EH as (ss & E & ->). apply map_Ok_cons in E as (s1 & ss1 & E1 & -> & E). apply map_Ok_cons in E as (s2 & ss2 & E2 & -> & E).
    symmetry in E. apply map_eq_nil in E as ->. assert (U1 : u32 1375135718 = Ok (little 4 1375135718)) by reflexivity. assert (U2 : u32 3 = Ok (little 4 3)) by reflexivity.
    assert (s1 = little 4 1375135718) as -> by congruence. assert (s2 = little 4 3) as -> by congruence. reflexivity. }
  assert (HB : existsb (Ascii.eqb (ascii_of_nat 0)) (firstn 8 (head ++ pts ++ zones ++ faces ++ [])) = true).
  { rewrite EH'. reflexivity. }
  assert (HT : take_bytes 8 (head ++ pts ++ zones ++ faces ++ []) = Ok (head, pts ++ zones ++ faces ++ [])).
  { rewrite EH'. unfold take_bytes. rewrite !app_length, !little_length. cbn [List.length Nat.add]. 
    cbn [Nat.leb guard bind]. reflexivity. }
  unfold read. rewrite HB. cbv zeta. unfold read_binary. rewrite HT. cbn [bind fst snd].
  apply concatM_ok in EP as (ss & E & ->). apply map_Ok_cons in E as (s1 & ss1 & E1 & -> & E). cbn [concat]. rewrite <- app_assoc. unfold of_nat in E1. rewrite (u32_read _ _ _ E1).
  cbn [bind fst snd]. rewrite Nat2Z.id. apply map_Ok_map in E.
  unfold feed in FD. cbv zeta in FD. rewrite map_length in FD.
  pose proof (times_fold binary_point (fun s ip => Ok (add_point s (pid (fst ip)) (snd ip))) binary_read_point (numbered (g_points m))) as TP.
  assert (LN : List.length (numbered (g_points m)) = List.length (g_points m)) by (unfold numbered; rewrite combine_length, seq_length; apply Nat.min_id).
  rewrite LN in TP.
  rewrite TP with (st' := feed_points start (combine (seq 0 (List.length (g_points m))) (g_points m))) (ts := ss1) (2 := E).
  2:{ intros [i p] t s0 s0' r0 I Q A. assert (s0' = add_point s0 (pid i) p) as -> by (cbn [fst snd] in A; congruence). apply (read_point i p); auto.
      apply in_combine_r in I. rewrite Forall_forall in P. auto. }
  2:{ rewrite fold_Ok. reflexivity. }
  cbn [bind]. destruct (feed_cells Zone _ _) as [st1|] eqn:F1; cbn [bind] in FD; [|discriminate].
  destruct (feed_groups Zone _ st1 zg) as [st2|] eqn:F2; cbn [bind] in FD; [|discriminate].
  rewrite (section_read Zone _ _ _ _ _ _ _ _ _ _ _ TZ GZ EZ NZ F1 F2). cbn [bind].
  rewrite map_length in FD. destruct (feed_cells Face _ _) as [st3|] eqn:F3; cbn [bind] in FD; [|discriminate].
  rewrite <- FI in F3. rewrite (section_read Face _ _ _ _ _ _ _ _ _ _ _ TF GF EF NF F3 FD). cbn [bind fst]. reflexivity.
Qed.
