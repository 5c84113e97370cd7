(** The mesh returned by the reader of FLAC3D grids. *)
From Coq Require Import String Ascii Arith ZArith Bool Lia List.
From Verif Require Import Base.Str Base.Flt Model.Py Model.Numpy Model.Mesh Model.F3grid Spec.MeshCells Spec.F3grid Proofs.F3Build Proofs.BlocksProof.
Import ListNotations.
Local Open Scope nat_scope.

Definition back (a b : str * list nat) : Prop := fst a = fst b /\ read_zone (fst a) (snd a) = Ok (snd b).
Definition block_sizes (cells : list cellblock) : list nat := map (fun c => List.length (snd c)) cells.
Lemma finish_rows t rows : Forall (fun r => exists b, read_zone t r = Ok b) rows ->
  exists rows', mapM (read_zone t) rows = Ok rows' /\ Forall2 back (map (pair t) rows) (map (pair t) rows') /\ List.length rows' = List.length rows.
Proof.
  induction 1 as [|r rows (b & Hb) F (rows' & E & F2 & L)]; [exists []; split; [reflexivity|]; split; [constructor|reflexivity]|]. cbn [mapM]. rewrite Hb. cbn [bind]. rewrite E. cbn [bind].
  exists (b :: rows'). split; auto. split; [|cbn; lia]. cbn [map]. constructor; auto. split; auto.
Qed.
Lemma finish_cells cells : Forall (fun a => exists b, read_zone (fst a) (snd a) = Ok b) (flat cells) ->
  exists cells', mapM (fun b : cellblock => let* rows := mapM (read_zone (fst b)) (snd b) in Ok (fst b, rows)) cells = Ok cells' /\
    Forall2 back (flat cells) (flat cells') /\ block_sizes cells' = block_sizes cells /\ map fst cells' = map fst cells.
Proof.
  induction cells as [|[t rows] cells IH]; intros F; [exists []; split; [reflexivity|]; split; [constructor|split; reflexivity]|].
  unfold flat in F. cbn [flat_map fst snd] in F. apply Forall_app in F as [F1 F2]. destruct (IH F2) as (cells' & E & G & L & T).
  destruct (finish_rows t rows) as (rows' & E' & G' & L').
  { apply Forall_forall. intros r I. rewrite Forall_forall in F1. apply (F1 (t, r)). now apply in_map. }
  exists ((t, rows') :: cells'). cbn [mapM fst snd]. rewrite E'. cbn [bind]. rewrite E. cbn [bind]. split; auto. split; [|split].
  - unfold flat. cbn [flat_map fst snd]. apply Forall2_app; auto.
  - unfold block_sizes in *. cbn [map snd]. congruence.
  - cbn [map fst]. congruence.
Qed.
Lemma merged_same cells cells' : block_sizes cells' = block_sizes cells -> map fst cells' = map fst cells -> merged cells -> merged cells'.
Proof.
  revert cells'. induction cells as [|[t rows] cells IH]; intros [|[t' rows'] cells'] L T M; try discriminate; auto.
  unfold block_sizes in L. cbn [map fst snd] in L, T. injection L as L1 L2. injection T as -> T2. cbn [merged] in *. destruct M as (A & B & D). split; [|split].
  - intros ->. apply A. now destruct rows.
  - destruct cells as [|[u us] cells], cells' as [|[u' us'] cells']; try discriminate; auto. cbn [map fst] in T2. injection T2 as -> _. exact B.
  - apply IH; auto.
Qed.
Lemma flat_count cells : List.length (flat cells) = n_cells cells.
Proof.
  unfold flat, n_cells. induction cells as [|[t rows] cells IH]; auto. cbn [flat_map map list_sum fst snd]. rewrite app_length, map_length, IH. reflexivity.
Qed.
Definition zone_part (G : nat -> nat) (gs : list (str * list nat)) (a k : nat) : list nat := match gs with [] => repeat 0 k | _ => map G (seq a k) end.
Lemma finish_ok slot pts zts zrows zg fts frows fg GZ GF :
  let nz := List.length zrows in let nf := List.length frows in
  good_rows Zone (List.length pts) zts zrows -> good_rows Face (List.length pts) fts frows ->
  NoDup (map fst zg ++ map fst fg) -> good_groups 0 nz zg -> good_groups nz nf fg ->
  Forall (fun a => exists b, read_zone (fst a) (snd a) = Ok b) (combine zts zrows ++ combine fts frows) ->
  (zg <> [] -> forall i, i < nz -> marks (S i) 0 zg = [GZ i]) ->
  (fg <> [] -> forall i, nz <= i < nz + nf -> marks (S i) (List.length zg) fg = [GF i]) ->
  (zg ++ fg <> [] -> 0 < nz + nf) ->
  exists c, (let* s := feed slot pts zrows zg frows fg in finish s) = Ok c /\ c_points c = pts /\
    Forall2 back (combine zts zrows ++ combine fts frows) (flat (c_cells c)) /\ merged (c_cells c) /\
    c_field c = fields Zone 0 zg ++ fields Face (List.length zg) fg /\
    match zg ++ fg with
    | [] => c_groups c = None
    | _ => exists gs, c_groups c = Some gs /\ map (@List.length nat) gs = block_sizes (c_cells c) /\
             concat gs = zone_part GZ zg 0 nz ++ zone_part GF fg nz nf
    end.
Proof.
  intros nz nf RZ RF N Z F B MZ MF P. rewrite (feed_ok slot pts zts zrows zg fts frows fg RZ RF N Z F). cbn [bind]. fold nz nf.
  set (rows := combine zts zrows ++ combine fts frows) in *.
  destruct (push_all rows []) as [PF PM]. set (cells := fold_left push rows []) in *. specialize (PM I). cbn [flat flat_map app] in PF.
  destruct (finish_cells cells) as (cells' & E & F2 & L & T); [rewrite PF; exact B|]. rewrite PF in F2.
  assert (LZ : List.length zts = nz) by (unfold nz; clear - RZ; induction RZ; cbn; auto).
  assert (LF : List.length fts = nf) by (unfold nf; clear - RF; induction RF; cbn; auto).
  assert (LN : n_cells cells = nz + nf).
  { rewrite <- flat_count, PF. unfold rows. rewrite app_length, !combine_length, LZ, LF. fold nz nf. lia. }
  unfold finish. cbn [r_points r_cells r_field r_zmap r_fmap r_zslots r_fslots].
  match goal with |- context [mapM ?f cells] => assert (E' : mapM f cells = Ok cells') by exact E end.
  assert (DZ : (if List.length (slots_of slot zg []) =? 0 then Ok (repeat 0 (n_cells cells)) else assign (repeat 0 (n_cells cells)) (keyed 0 (map (fun i => i :: marks (S i) 0 zg) (seq 0 nz))))
    = Ok (zone_part GZ zg 0 nz ++ repeat 0 nf)).
  { rewrite LN. destruct zg as [|g zg']; cbn [slots_of List.length Nat.eqb zone_part].
    - now rewrite repeat_app.
    - rewrite (map_ext_in _ (fun i => [i; GZ i])).
      + pose proof (assign_seq GZ nz 0 [] (repeat 0 (nz + nf)) eq_refl) as A. cbn [app] in A. rewrite A by (rewrite repeat_length; lia).
        do 2 f_equal. rewrite repeat_app, skipn_app, repeat_length, Nat.sub_diag. cbn [skipn]. rewrite skipn_all2 by (rewrite repeat_length; lia). reflexivity.
      + intros i Hi. apply in_seq in Hi. f_equal. apply MZ; [discriminate|lia]. }
  assert (LP : List.length (zone_part GZ zg 0 nz) = nz) by (destruct zg; cbn [zone_part]; [apply repeat_length|now rewrite map_length, seq_length]).
  assert (DF : (if List.length (slots_of slot fg []) =? 0 then Ok (zone_part GZ zg 0 nz ++ repeat 0 nf) else assign (zone_part GZ zg 0 nz ++ repeat 0 nf) (keyed nz (map (fun i => i :: marks (S i) (List.length zg) fg) (seq nz nf))))
    = Ok (zone_part GZ zg 0 nz ++ zone_part GF fg nz nf)).
  { destruct fg as [|g fg']; cbn [slots_of List.length Nat.eqb zone_part]; [reflexivity|].
    rewrite (map_ext_in _ (fun i => [i; GF i])).
    + rewrite (assign_seq GF nf nz _ (repeat 0 nf) LP) by (rewrite repeat_length; lia). do 2 f_equal.
      rewrite skipn_all2 by (rewrite repeat_length; lia). apply app_nil_r.
    + intros i Hi. apply in_seq in Hi. f_equal. apply MF; [discriminate|lia]. }
  assert (FE : forall X : res (option (list (list nat))), match fields Zone 0 zg ++ fields Face (List.length zg) fg with [] => Ok None | _ => X end = match zg ++ fg with [] => Ok None | _ => X end).
  { intros X. destruct zg; [destruct fg|]; reflexivity. }
  rewrite FE. destruct (zg ++ fg) as [|g0 gs0] eqn:EG.
  - cbn [bind]. rewrite E'. cbn [bind]. eexists. split; [reflexivity|]. cbn [c_points c_cells c_field c_groups]. repeat split; auto. now apply (merged_same cells).
  - assert (NE : cells <> []) by (intros X; rewrite X in LN; cbn in LN; specialize (P ltac:(discriminate)); lia).
    rewrite DZ. destruct (Nat.eqb_spec (List.length cells) 0) as [X|_]; [destruct cells; [contradiction|discriminate]|]. cbn [negb guard bind]. rewrite DF. cbn [bind]. rewrite E'. cbn [bind].
    eexists. split; [reflexivity|]. cbn [c_points c_cells c_field c_groups].
    assert (LL : List.length (zone_part GZ zg 0 nz ++ zone_part GF fg nz nf) = n_cells cells).
    { rewrite LN, app_length, LP. f_equal. destruct fg; cbn [zone_part]; [apply repeat_length|now rewrite map_length, seq_length]. }
    destruct (split_ok cells _ NE LL) as (ps & S1 & S2 & S3). unfold split in S1. rewrite LL, Nat.eqb_refl in S1. cbn [guard bind] in S1.
    repeat split; auto; [now apply (merged_same cells)|]. eexists. split; [reflexivity|].
    assert (S1' : np_split (zone_part GZ zg 0 nz ++ zone_part GF fg nz nf) (removelast (cumsum 0 (map (fun c => List.length (snd c)) cells))) = ps) by congruence.
    rewrite S1'. split; [|exact S2]. unfold sizes in S3. rewrite S3, L. reflexivity.
Qed.
