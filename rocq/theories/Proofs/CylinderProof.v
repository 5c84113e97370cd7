(** Cylindric grids. *)
From Coq Require Import String Ascii Arith ZArith QArith Qcanon Lqa Bool Lia Permutation Sorted List.
From Verif Require Import Base.Str Model.Py Model.Numpy Model.Mesh Model.MeshOps Model.Grid Model.Geometry Spec.Extrude Spec.Grid Spec.Geometry
  Proofs.NumpyProof Proofs.ConnectProof Proofs.MaterialProof Proofs.ReorderProof Proofs.ExtrudeProof Proofs.GridProof Proofs.VoxelProof Proofs.GeometryProof Proofs.TimeSeriesProof.
Import ListNotations.
Local Open Scope nat_scope.

(** A table by rows: row [k], column [i] holds [f i k]. *)
Definition table {A} (nr nz : nat) (f : nat -> nat -> option A) (l : list A) : Prop :=
  List.length l = nz * nr /\ forall i k, i < nr -> k < nz -> nth_error l (k * nr + i) = f i k.
Lemma repeat_nth {A} (x : A) n i : i < n -> nth_error (repeat x n) i = Some x.
Proof. revert i. induction n as [|n IH]; intros [|i] L; try lia; cbn [repeat nth_error]; [reflexivity|apply IH; lia]. Qed.
Lemma tiled_flat {A} (l : list A) n : tiled l n = flat_map (fun _ => l) (repeat tt n).
Proof. unfold tiled. induction n as [|n IH]; [reflexivity|]. cbn [repeat concat flat_map]. now rewrite IH. Qed.
Lemma tiled_table {A} (l : list A) nz : table (List.length l) nz (fun i _ => nth_error l i) (tiled l nz).
Proof.
  rewrite tiled_flat. split; [rewrite (flat_len (List.length l)) by reflexivity; now rewrite repeat_length|]. intros i k I K. rewrite (flat_nth (List.length l)) by auto. now rewrite repeat_nth.
Qed.
Lemma heights_table (dr dz : list Qc) : table (List.length dr) (List.length dz) (fun _ k => nth_error dz k) (cell_heights dr dz).
Proof.
  unfold cell_heights. rewrite <- flat_map_concat_map. assert (L : forall x, In x dz -> List.length (repeat x (List.length dr)) = List.length dr) by (intros; apply repeat_length).
  split; [now apply flat_len|]. intros i k I K. rewrite (flat_nth (List.length dr)) by auto. destruct (nth_error dz k) as [d|]; [now apply repeat_nth|reflexivity].
Qed.
Lemma map_table {A B} (g : A -> B) nr nz f l : table nr nz f l -> table nr nz (fun i k => option_map g (f i k)) (map g l).
Proof. intros (L & H). split; [now rewrite map_length|]. intros i k I K. now rewrite nth_error_map, H. Qed.
Lemma combine_nth_error {A B} (a : list A) : forall (b : list B) i, nth_error (combine a b) i = match nth_error a i, nth_error b i with Some x, Some y => Some (x, y) | _, _ => None end.
Proof.
  induction a as [|x a IH]; intros [|y b] [|i]; try reflexivity; cbn [combine nth_error]; [destruct (nth_error a i); reflexivity|apply IH].
Qed.
Lemma times_table nr nz f g a b : table nr nz f a -> table nr nz g b ->
  table nr nz (fun i k => match f i k, g i k with Some x, Some y => Some (x * y)%Qc | _, _ => None end) (qtimes a b).
Proof.
  intros (La & Ha) (Lb & Hb). unfold qtimes. split; [rewrite map_length, combine_length; lia|]. intros i k I K. rewrite nth_error_map, combine_nth_error, Ha, Hb by assumption.
  destruct (f i k), (g i k); reflexivity.
Qed.
Lemma table_bound nr nz i k : i < nr -> k < nz -> k * nr + i < nz * nr.
Proof. intros I K. nia. Qed.
Lemma columns_table {A} nr nz f (l : list A) : table nr nz f l ->
  exists l', by_columns nr nz l = Ok l' /\ List.length l' = nz * nr /\ Permutation l' l /\ forall i k, i < nr -> k < nz -> nth_error l' (i * nz + k) = f i k.
Proof.
  intros (L & H). unfold by_columns. set (is := flat_map _ (seq 0 nr)).
  assert (Lr : forall x, In x (seq 0 nr) -> List.length (map (fun k => k * nr + x) (seq 0 nz)) = nz) by (intros; now rewrite map_length, seq_length).
  assert (Pm : Permutation is (seq 0 (List.length l))).
  { apply NoDup_Permutation_bis.
    - unfold is. apply nodup_flat_map; [apply seq_NoDup| |].
      + intros x I. apply in_seq in I. apply nodup_map_inj; [intros a b E; nia|apply seq_NoDup].
      + intros x y b Ix Iy Bx By. apply in_seq in Ix, Iy. apply in_map_iff in Bx as (k1 & E1 & _). apply in_map_iff in By as (k2 & E2 & _). rewrite <- E2 in E1. eapply pair_inj in E1; [|lia|lia]. lia.
    - unfold is. rewrite seq_length, (flat_len nz _ _ Lr), seq_length, L. lia.
    - intros j J. unfold is in J. apply in_flat_map in J as (i & Ii & J). apply in_map_iff in J as (k & <- & Ik). apply in_seq in Ii, Ik. apply in_seq. rewrite L. pose proof (table_bound nr nz i k). lia. }
  destruct (take_permutation l _ _ _ Pm (take_seq l)) as (l' & T & P). exists l'. split; [exact T|]. split; [rewrite (Permutation_length P); exact L|]. split; [exact P|].
  intros i k I K. unfold take in T. apply mapM_F2 in T. assert (N : nth_error is (i * nz + k) = Some (k * nr + i)).
  { unfold is. rewrite (flat_nth nz _ _ _ _ Lr K). rewrite seq_nth_error by exact I. rewrite nth_error_map, seq_nth_error by exact K. reflexivity. }
  rewrite <- H by assumption. clear -T N. revert N. generalize (i * nz + k) (k * nr + i). intros a b. revert a. induction T as [|j x is l' R T IH]; intros [|a] N; try discriminate.
  - injection N as ->. unfold item in R. destruct (nth_error l b); [|discriminate]. now injection R as ->.
  - exact (IH a N).
Qed.

(** ** Radii *)
Lemma level_S {C} (add : C -> C -> C) d (l : list C) : forall acc i, nth_error l i = Some d -> level add acc l (S i) = add (level add acc l i) d.
Proof. unfold level. induction l as [|x l IH]; intros acc [|i] N; try discriminate; [injection N as ->; reflexivity|]. cbn [firstn fold_left nth_error] in *. now rewrite <- (IH (add acc x) i N). Qed.
Lemma qcumsum_nth l : forall acc i, i < List.length l -> nth_error (qcumsum acc l) i = Some (level Qcplus acc l (S i)).
Proof.
  unfold level. induction l as [|d l IH]; intros acc [|i] L; cbn [List.length] in L; try lia; cbn [qcumsum nth_error firstn fold_left]; [reflexivity|]. rewrite IH by lia. reflexivity.
Qed.
Lemma qcumsum_length l : forall acc, List.length (qcumsum acc l) = List.length l.
Proof. induction l as [|d l IH]; intros acc; [reflexivity|]. cbn [qcumsum List.length]. now rewrite IH. Qed.
Lemma qdiff_nth l : forall i a b, nth_error l i = Some a -> nth_error l (S i) = Some b -> nth_error (qdiff l) i = Some (b - a)%Qc.
Proof.
  induction l as [|x l IH]; intros i a b Na Nb; [destruct i; discriminate|]. destruct l as [|y l]; [destruct i; discriminate|]. destruct i as [|i]; [injection Na as ->; injection Nb as ->; reflexivity|].
  change (nth_error (qdiff (y :: l)) i = Some (b - a)%Qc). apply IH; assumption.
Qed.
Lemma qdiff_length l : List.length (qdiff l) = List.length l - 1.
Proof. induction l as [|x l IH]; [reflexivity|]. destruct l as [|y l]; [reflexivity|]. cbn [qdiff List.length] in *. rewrite IH. lia. Qed.
Definition rings (dr : list Qc) : list Qc := let r2 := map (fun r => r * r)%Qc (qcumsum 0%Qc dr) in match r2 with [] => [] | a :: _ => a :: qdiff r2 end.
Lemma rings_eq dr : rings dr = qdiff (0%Qc :: map (fun r => r * r)%Qc (qcumsum 0%Qc dr)).
Proof. unfold rings. destruct (map _ _) as [|a r]; [reflexivity|]. cbn [qdiff]. f_equal. ring. Qed.
Lemma rings_length dr : List.length (rings dr) = List.length dr.
Proof. rewrite rings_eq, qdiff_length. cbn [List.length]. rewrite map_length, qcumsum_length. lia. Qed.
Definition radius (dr : list Qc) (i : nat) : Qc := level Qcplus 0%Qc dr i.
Lemma rings_nth dr i : i < List.length dr -> nth_error (rings dr) i = Some (radius dr (S i) * radius dr (S i) - radius dr i * radius dr i)%Qc.
Proof.
  intros L. rewrite rings_eq. apply qdiff_nth.
  - destruct i as [|i]; [reflexivity|]. cbn [nth_error]. rewrite nth_error_map, qcumsum_nth by lia. reflexivity.
  - cbn [nth_error]. rewrite nth_error_map, qcumsum_nth by lia. reflexivity.
Qed.
Lemma ring_areas_table pi dr dz : table (List.length dr) (List.length dz)
  (fun i _ => Some ((radius dr (S i) * radius dr (S i) - radius dr i * radius dr i) * pi)%Qc) (ring_areas pi dr dz).
Proof.
  change (ring_areas pi dr dz) with (map (fun a => a * pi)%Qc (tiled (rings dr) (List.length dz))).
  pose proof (map_table (fun a => a * pi)%Qc _ _ _ _ (tiled_table (rings dr) (List.length dz))) as (L & H). rewrite rings_length in L, H. split; [exact L|]. intros i k I K. rewrite H, rings_nth by assumption. reflexivity.
Qed.
(** [out]: columns from the top; layer by layer, or by columns. *)
Definition placed {A} (layer : bool) (nr nz : nat) (f : nat -> nat -> option A) (l : list A) : Prop :=
  List.length l = nr * 1 * nz /\ forall i k, i < nr -> k < nz -> nth_error l (rank3 layer nr 1 nz i 0 k) = f i (nz - 1 - k).
Lemma arranged {A} (layer : bool) nr nz f (l : list A) : table nr nz f l ->
  exists l', (if layer then Ok l else by_columns nr nz l) = Ok l' /\ placed layer nr nz f l' /\ Permutation l' l.
Proof.
  intros T. destruct layer.
  - exists l. destruct T as (L & H). split; [reflexivity|]. split; [|reflexivity]. split; [lia|]. intros i k I K. unfold rank3. rewrite Nat.mul_1_r, Nat.add_0_r. apply H; lia.
  - destruct (columns_table nr nz f l T) as (l' & E & L & P & H). exists l'. split; [exact E|]. split; [|exact P]. split; [lia|]. intros i k I K. unfold rank3. rewrite Nat.mul_1_r, Nat.add_0_r. apply H; lia.
Qed.
Lemma rows6_nth a : forall b c d e f i, nth_error (rows6 a b c d e f) i =
  match nth_error a i, nth_error b i, nth_error c i, nth_error d i, nth_error e i, nth_error f i with
  | Some x1, Some x2, Some x3, Some x4, Some x5, Some x6 => Some [x1; x2; x3; x4; x5; x6] | _, _, _, _, _, _ => None end.
Proof.
  induction a as [|x1 a IH]; intros [|x2 b] [|x3 c] [|x4 d] [|x5 e] [|x6 f] [|i]; cbn [rows6 nth_error]; try reflexivity; try match goal with IH : forall _, _ |- _ => apply IH end;
  repeat match goal with |- context [nth_error ?l i] => destruct (nth_error l i) end; reflexivity.
Qed.
Lemma rows6_length a : forall b c d e f n, List.length a = n -> List.length b = n -> List.length c = n -> List.length d = n -> List.length e = n -> List.length f = n ->
  List.length (rows6 a b c d e f) = n.
Proof.
  induction a as [|x1 a IH]; intros [|x2 b] [|x3 c] [|x4 d] [|x5 e] [|x6 f] n La Lb Lc Ld Le Lf; cbn [rows6 List.length] in *; try lia. destruct n as [|n]; [lia|].
  f_equal. apply IH; lia.
Qed.
Lemma removelast_cons {A} (x : A) l : removelast (x :: l) = match l with [] => [] | _ => x :: removelast l end.
Proof. destruct l; reflexivity. Qed.
Lemma level_removelast (l : list Qc) i : forall acc, i < List.length l -> level Qcplus acc (removelast l) i = level Qcplus acc l i.
Proof.
  unfold level. revert i. induction l as [|x l IH]; intros i acc L; [reflexivity|]. destruct i as [|i]; [reflexivity|]. destruct l as [|y l]; [cbn in L; lia|].
  change (removelast (x :: y :: l)) with (x :: removelast (y :: l)). cbn [firstn fold_left]. apply IH. cbn [List.length] in *. lia.
Qed.
Lemma inner_nth dr i : i < List.length dr -> nth_error (qcumsum 0%Qc (removelast (0%Qc :: dr))) i = Some (radius dr i).
Proof.
  intros L. rewrite removelast_cons. destruct dr as [|d dr]; [cbn in L; lia|]. set (l := d :: dr) in *. change (nth_error (qcumsum 0 (0%Qc :: removelast l)) i = Some (radius l i))%Qc.
  assert (LR : List.length (removelast l) = List.length l - 1). { clear. unfold l. generalize d. induction dr as [|y r IH]; intros x; [reflexivity|]. change (removelast (x :: y :: r)) with (x :: removelast (y :: r)). cbn [List.length] in *. rewrite IH. lia. }
  rewrite qcumsum_nth by (cbn [List.length]; lia). unfold level. cbn [firstn fold_left]. replace (0 + 0)%Qc with 0%Qc by ring. f_equal. apply (level_removelast l i 0%Qc L).
Qed.
Lemma inner_length dr : List.length (qcumsum 0%Qc (removelast (0%Qc :: dr))) = List.length dr.
Proof.
  rewrite qcumsum_length. generalize 0%Qc. induction dr as [|y r IH]; intros x; [reflexivity|]. change (removelast (x :: y :: r)) with (x :: removelast (y :: r)). cbn [List.length]. now rewrite IH.
Qed.
Definition ring_volume (pi : Qc) dr dz i k : option Qc :=
  match nth_error dz k with Some h => Some ((radius dr (S i) * radius dr (S i) - radius dr i * radius dr i) * pi * h)%Qc | None => None end.
Lemma volumes_table pi dr dz : table (List.length dr) (List.length dz) (ring_volume pi dr dz) (qtimes (ring_areas pi dr dz) (cell_heights dr dz)).
Proof. exact (times_table _ _ _ _ _ _ (ring_areas_table pi dr dz) (heights_table dr dz)). Qed.
Definition ring_faces (pi : Qc) dr dz i k : option (list Qc) :=
  match nth_error dr i, nth_error dz k with
  | Some d, Some h => let A := ((radius dr (S i) * radius dr (S i) - radius dr i * radius dr i) * pi)%Qc in
      Some [A; A; (d * h)%Qc; (radius dr (S i) * Q2Qc 2 * pi * h)%Qc; (d * h)%Qc; (radius dr i * Q2Qc 2 * pi * h)%Qc]
  | _, _ => None end.
Lemma table_ext {A} nr nz (f g : nat -> nat -> option A) l : (forall i k, i < nr -> k < nz -> f i k = g i k) -> table nr nz f l -> table nr nz g l.
Proof. intros E (L & H). split; [exact L|]. intros i k I K. rewrite H by assumption. now apply E. Qed.
Lemma faces_table pi dr dz : let nz := List.length dz in let heights := cell_heights dr dz in let areas := ring_areas pi dr dz in let sections := qtimes (tiled dr nz) heights in
  table (List.length dr) nz (ring_faces pi dr dz)
  (rows6 areas areas sections (qtimes (map (fun r => r * Q2Qc 2 * pi)%Qc (tiled (qcumsum 0%Qc dr) nz)) heights) sections
    (qtimes (map (fun r => r * Q2Qc 2 * pi)%Qc (tiled (qcumsum 0%Qc (removelast (0%Qc :: dr))) nz)) heights)).
Proof.
  intros nz heights areas sections. pose proof (heights_table dr dz) as TH. fold heights nz in TH. pose proof (ring_areas_table pi dr dz) as TA. fold areas nz in TA.
  pose proof (times_table _ _ _ _ _ _ (tiled_table dr nz) TH) as TS. fold sections in TS.
  pose proof (map_table (fun r => r * Q2Qc 2 * pi)%Qc _ _ _ _ (tiled_table (qcumsum 0%Qc dr) nz)) as TO. rewrite qcumsum_length in TO. pose proof (times_table _ _ _ _ _ _ TO TH) as TO'.
  pose proof (map_table (fun r => r * Q2Qc 2 * pi)%Qc _ _ _ _ (tiled_table (qcumsum 0%Qc (removelast (0%Qc :: dr))) nz)) as TI. rewrite inner_length in TI. pose proof (times_table _ _ _ _ _ _ TI TH) as TI'.
  split.
  - apply rows6_length; [apply TA|apply TA|apply TS|apply TO'|apply TS|apply TI'].
  - intros i k I K. rewrite rows6_nth. rewrite (proj2 TA i k I K), (proj2 TS i k I K), (proj2 TO' i k I K), (proj2 TI' i k I K). rewrite qcumsum_nth, inner_nth by exact I. cbn [option_map].
    unfold ring_faces. destruct (nth_error dr i) as [d|] eqn:Nd; [|reflexivity]. destruct (nth_error dz k) as [h|]; reflexivity.
Qed.
(** ** Totals *)
Lemma qsum_app a b : qsum (a ++ b) = (qsum a + qsum b)%Qc.
Proof. induction a as [|x a IH]; cbn [app]; [change (qsum []) with 0%Qc; ring|]. cbn [qsum fold_right]. fold (qsum (a ++ b)). fold (qsum a). rewrite IH. ring. Qed.
Lemma qsum_perm a b : Permutation a b -> qsum a = qsum b.
Proof.
  assert (C : forall x l, qsum (x :: l) = (x + qsum l)%Qc) by reflexivity. induction 1; rewrite ?C; [reflexivity|now rewrite IHPermutation|ring|congruence].
Qed.
Lemma level_qsum l : forall acc, fold_left Qcplus l acc = (acc + qsum l)%Qc.
Proof. induction l as [|x l IH]; intros acc; cbn [fold_left qsum fold_right]; [ring|]. rewrite IH. fold (qsum l). ring. Qed.
Lemma qsum_scale c l : qsum (map (fun a => a * c)%Qc l) = (qsum l * c)%Qc.
Proof. induction l as [|x l IH]; cbn [map qsum fold_right]; [ring|]. fold (qsum (map (fun a => a * c)%Qc l)). fold (qsum l). rewrite IH. ring. Qed.
Lemma rings_sum dr : forall acc, qsum (qdiff ((acc * acc)%Qc :: map (fun r => r * r)%Qc (qcumsum acc dr))) = ((acc + qsum dr) * (acc + qsum dr) - acc * acc)%Qc.
Proof.
  induction dr as [|d dr IH]; intros acc; [cbn [qcumsum map qdiff qsum fold_right]; ring|]. cbn [qcumsum map].
  change (qdiff ((acc * acc)%Qc :: ((acc + d) * (acc + d))%Qc :: map (fun r => r * r)%Qc (qcumsum (acc + d)%Qc dr)))
    with (((acc + d) * (acc + d) - acc * acc)%Qc :: qdiff (((acc + d) * (acc + d))%Qc :: map (fun r => r * r)%Qc (qcumsum (acc + d)%Qc dr))).
  cbn [qsum fold_right]. fold (qsum dr). match goal with |- (_ + fold_right Qcplus 0 ?l)%Qc = _ => change (fold_right Qcplus 0 l)%Qc with (qsum l) end. rewrite IH. ring.
Qed.
Lemma combine_app {A B} (a a' : list A) (b b' : list B) : List.length a = List.length b -> combine (a ++ a') (b ++ b') = combine a b ++ combine a' b'.
Proof. revert b. induction a as [|x a IH]; intros [|y b] L; try discriminate; [reflexivity|]. cbn [app combine]. f_equal. apply IH. now injection L. Qed.
Lemma combine_repeat_sum l h : qsum (map (fun xy => fst xy * snd xy)%Qc (combine l (repeat h (List.length l)))) = (qsum l * h)%Qc.
Proof.
  induction l as [|x l IH]; [cbn; ring|]. cbn [List.length repeat combine map qsum fold_right fst snd]. fold (qsum l).
  match goal with |- (_ + fold_right Qcplus 0 ?l)%Qc = _ => change (fold_right Qcplus 0 l)%Qc with (qsum l) end. rewrite IH. ring.
Qed.
Lemma grid_sum (l dz : list Qc) : qsum (qtimes (tiled l (List.length dz)) (concat (map (fun d => repeat d (List.length l)) dz))) = (qsum l * qsum dz)%Qc.
Proof.
  unfold tiled, qtimes. induction dz as [|d dz IH]; [cbn; ring|]. cbn [List.length repeat concat map]. rewrite combine_app by (now rewrite repeat_length). rewrite map_app, qsum_app, IH, combine_repeat_sum.
  cbn [qsum fold_right]. fold (qsum dz). ring.
Qed.
Lemma volumes_sum pi dr dz : qsum (qtimes (ring_areas pi dr dz) (cell_heights dr dz)) = (pi * (qsum dr * qsum dr) * qsum dz)%Qc.
Proof.
  change (ring_areas pi dr dz) with (map (fun a => a * pi)%Qc (tiled (rings dr) (List.length dz))).
  assert (E : map (fun a => a * pi)%Qc (tiled (rings dr) (List.length dz)) = tiled (map (fun a => a * pi)%Qc (rings dr)) (List.length dz)) by (unfold tiled; rewrite concat_map; f_equal; clear; induction (List.length dz) as [|n IH]; [reflexivity|]; cbn [repeat map]; now rewrite IH).
  rewrite E. pose proof (grid_sum (map (fun a => a * pi)%Qc (rings dr)) dz) as G. rewrite map_length, rings_length in G. unfold cell_heights. rewrite G, qsum_scale, rings_eq.
  pose proof (rings_sum dr 0%Qc) as R. replace (0 * 0)%Qc with 0%Qc in R by ring. rewrite R. ring.
Qed.
Lemma qsum_rev l : qsum (rev l) = qsum l.
Proof. apply qsum_perm, Permutation_sym, Permutation_rev. Qed.

(** ** The grid *)
Theorem cylinder pi dr dz origin_z layer material : dr <> [] -> dz <> [] -> Forall (fun d => 0 < d)%Qc dr -> Forall (fun d => 0 < d)%Qc dz ->
  exists m cs vs fs, cylindric_grid pi dr dz origin_z layer material = Ok (m, vs, fs) /\ cells m = [($"hexahedron", cs)] /\ dim m = 3 /\
    List.length cs = List.length dr * 1 * List.length dz /\ List.length vs = List.length cs /\ List.length fs = List.length cs /\
    adds_up vs (pi * (qsum dr * qsum dr) * qsum dz)%Qc /\
    forall i k, i < List.length dr -> k < List.length dz -> let n := rank3 layer (List.length dr) 1 (List.length dz) i 0 k in
    let oz := match origin_z with Some z => z | None => (- qsum dz)%Qc end in
    let x0 := radius dr i in let x1 := radius dr (i + 1) in let z0 := (radius dz k + oz)%Qc in let z1 := (radius dz (k + 1) + oz)%Qc in
    exists vert, nth_error cs n = Some vert /\ map (nth_error (points m)) vert = map Some (box x0 x1 (Q2Qc (Qmake (-1) 2)) (Q2Qc (Qmake 1 2)) z0 z1) /\
      nth_error vs n = Some (pi * (x1 * x1 - x0 * x0) * (z1 - z0))%Qc /\
      nth_error fs n = Some [(pi * (x1 * x1 - x0 * x0))%Qc; (pi * (x1 * x1 - x0 * x0))%Qc; ((x1 - x0) * (z1 - z0))%Qc; (rational 2 * pi * x1 * (z1 - z0))%Qc;
        ((x1 - x0) * (z1 - z0))%Qc; (rational 2 * pi * x0 * (z1 - z0))%Qc].
Proof.
  intros NR NZ PR PZ. unfold cylindric_grid.
  assert (G : forall l, Forall (fun d => 0 < d)%Qc l -> forallb (fun d => negb (qleb d 0)) l = true).
  { intros l F. apply forallb_forall. rewrite Forall_forall in F. intros x I. apply F, qleb_false in I. now rewrite I. }
  rewrite (G dr PR), (G dz PZ). cbn [guard bind]. set (oz' := match origin_z with Some z => z | None => _ end).
  assert (EZ : oz' = match origin_z with Some z => z | None => (- qsum dz)%Qc end). { unfold oz'. destruct origin_z; [reflexivity|]. unfold total. rewrite level_qsum. f_equal. ring. }
  destruct (@grid3 Qc Qcplus Qcopp 0%Qc dr [1%Qc] dz (Some [0%Qc; Q2Qc (Qmake (-1) 2); oz']) layer material 0%Qc (Q2Qc (Qmake (-1) 2)) oz' NR ltac:(discriminate) NZ (or_introl eq_refl))
    as (m & cs & Em & Dm & Cm & Lc & _ & _ & Hc). unfold qgrid. rewrite Em. cbn [bind]. change (List.length [1%Qc]) with 1 in Lc, Hc.
  pose proof (volumes_table pi dr (rev dz)) as TV. pose proof (faces_table pi dr (rev dz)) as TF. cbn zeta in TF.
  destruct (arranged layer _ _ _ _ TV) as (vs & Ev & (Lv & Hv) & Pv). destruct (arranged layer _ _ _ _ TF) as (fs & Ef & (Lf & Hf) & _).
  unfold cylinder_volumes. rewrite Ev. cbn [bind]. unfold cylinder_face_areas. rewrite Ef. cbn [bind]. rewrite rev_length in Lv, Hv, Lf, Hf.
  exists m, cs, vs, fs. split; [reflexivity|]. split; [exact Cm|]. split; [exact Dm|]. split; [exact Lc|]. split; [congruence|]. split; [congruence|]. split.
  { pose proof (qsum_adds vs) as A. rewrite (qsum_perm _ _ Pv), volumes_sum, qsum_rev in A. exact A. }
  intros i k I K. set (n := rank3 _ _ _ _ _ _ _). set (oz := match origin_z with Some z => z | None => (- qsum dz)%Qc end).
  set (x0 := radius dr i). set (x1 := radius dr (i + 1)). set (z0 := (radius dz k + oz)%Qc). set (z1 := (radius dz (k + 1) + oz)%Qc). destruct (Hc i 0 k I ltac:(lia) K) as (vert & Nv & Bv). exists vert. split; [exact Nv|]. split.
  { rewrite Bv. f_equal. unfold x0, x1, z0, z1, oz, radius. rewrite EZ.
    replace (level Qcplus 0%Qc dr i + 0)%Qc with (level Qcplus 0%Qc dr i) by ring. replace (level Qcplus 0%Qc dr (i + 1) + 0)%Qc with (level Qcplus 0%Qc dr (i + 1)) by ring. reflexivity. }
  assert (Rev : nth_error (rev dz) (List.length dz - 1 - k) = nth_error dz k). { destruct (nth_error dz k) as [h|] eqn:Nk; [|apply nth_error_None in Nk; lia]. now apply rev_nth_error. }
  destruct (nth_error dz k) as [h|] eqn:Nk; [|apply nth_error_None in Nk; lia]. destruct (nth_error dr i) as [d|] eqn:Nd; [|apply nth_error_None in Nd; lia].
  assert (X1 : x1 = (x0 + d)%Qc) by (unfold x1, x0, radius; rewrite Nat.add_1_r; now apply level_S).
  assert (Z1 : (z1 - z0 = h)%Qc) by (unfold z1, z0, radius; rewrite Nat.add_1_r, (level_S Qcplus h dz 0%Qc k Nk); ring).
  assert (XS : radius dr (S i) = x1) by (unfold x1; now rewrite Nat.add_1_r).
  split.
  - unfold n. rewrite Hv by assumption. unfold ring_volume. rewrite Rev. f_equal. rewrite XS, Z1. fold x0. ring.
  - unfold n. rewrite Hf by assumption. unfold ring_faces. rewrite Rev, Nd. rewrite XS, Z1. fold x0. change (Q2Qc 2) with (1 + 1)%Qc. change (rational 2) with (1 + 1)%Qc. rewrite X1. cbn zeta.
    match goal with |- Some [?a1; ?a2; ?a3; ?a4; ?a5; ?a6] = Some [?b1; ?b2; ?b3; ?b4; ?b5; ?b6] =>
      replace a1 with b1 by ring; replace a3 with b3 by ring; replace a4 with b4 by ring; replace a6 with b6 by ring end. reflexivity.
Qed.
Theorem cylinder_refused pi dr dz origin_z layer material : (exists d, (In d dr \/ In d dz) /\ (d <= 0)%Qc) -> cylindric_grid pi dr dz origin_z layer material = Err ValueError.
Proof.
  intros (d & I & N). unfold cylindric_grid. assert (G : forall l, In d l -> forallb (fun d => negb (qleb d 0)) l = false).
  { intros l J. destruct (forallb _ l) eqn:F; [|reflexivity]. rewrite forallb_forall in F. specialize (F d J). apply qleb_le in N. rewrite N in F. discriminate. }
  destruct I as [I | I]; rewrite (G _ I); [reflexivity|]. destruct (forallb _ dr); reflexivity.
Qed.
Theorem cylinder_cells pi dr dz origin_z layer material R H : dr <> [] -> dz <> [] -> Forall (fun d => 0 < d)%Qc dr -> Forall (fun d => 0 < d)%Qc dz ->
  adds_up dr R -> adds_up dz H -> let oz := match origin_z with Some z => z | None => (- H)%Qc end in
  exists m cs vs fs, cylindric_grid pi dr dz origin_z layer material = Ok (m, vs, fs) /\ cells m = [($"hexahedron", cs)] /\
    List.length cs = List.length dr * List.length dz /\ List.length vs = List.length cs /\ List.length fs = List.length cs /\
    adds_up vs (pi * (R * R) * H)%Qc /\
    (forall n vert, nth_error cs n = Some vert -> exists x0 x1 z0 z1, (x0 < x1)%Qc /\ (z0 < z1)%Qc /\
      map (nth_error (points m)) vert = map Some (box x0 x1 (Q2Qc (Qmake (-1) 2)) (Q2Qc (Qmake 1 2)) z0 z1) /\
      nth_error vs n = Some (pi * (x1 * x1 - x0 * x0) * (z1 - z0))%Qc /\
      nth_error fs n = Some [(pi * (x1 * x1 - x0 * x0))%Qc; (pi * (x1 * x1 - x0 * x0))%Qc; ((x1 - x0) * (z1 - z0))%Qc; (rational 2 * pi * x1 * (z1 - z0))%Qc;
        ((x1 - x0) * (z1 - z0))%Qc; (rational 2 * pi * x0 * (z1 - z0))%Qc]) /\
    (forall i k, i < List.length dr -> k < List.length dz -> exists vert, nth_error cs (rank3 layer (List.length dr) 1 (List.length dz) i 0 k) = Some vert /\
      map (nth_error (points m)) vert = map Some (box (level Qcplus 0 dr i) (level Qcplus 0 dr (i + 1)) (Q2Qc (Qmake (-1) 2)) (Q2Qc (Qmake 1 2))
        (level Qcplus 0 dz k + oz) (level Qcplus 0 dz (k + 1) + oz))%Qc).
Proof.
  intros NR NZ PR PZ AR AH oz. apply adds_unique in AR, AH. destruct (cylinder pi dr dz origin_z layer material NR NZ PR PZ) as (m & cs & vs & fs & E & Cm & _ & Lc & Lv & Lf & A & Hc). cbn zeta in Hc.
  rewrite <- AR, <- AH in A. rewrite <- AH in Hc. fold oz in Hc. exists m, cs, vs, fs. split; [exact E|]. split; [exact Cm|]. split; [lia|]. split; [exact Lv|]. split; [exact Lf|]. split; [exact A|].
  assert (Mono : forall l i, Forall (fun d => 0 < d)%Qc l -> i < List.length l -> (radius l i < radius l (i + 1))%Qc).
  { intros l i F L. destruct (nth_error l i) as [d|] eqn:N; [|apply nth_error_None in N; lia]. unfold radius. rewrite Nat.add_1_r, (level_S Qcplus d l 0%Qc i N).
    rewrite Forall_forall in F. pose proof (F d (nth_error_In _ _ N)) as P. generalize (level Qcplus 0%Qc l i). intros r. q_arith. }
  split.
  - intros n vert Nn. assert (B : n < List.length dr * 1 * List.length dz) by (rewrite <- Lc; apply nth_error_Some; congruence).
    destruct (rank3_onto layer (List.length dr) 1 (List.length dz) n B) as (i & j & k & I & J & K & ->). assert (j = 0) by lia. subst j.
    destruct (Hc i k I K) as (vert' & Nv & Bv & Vv & Fv). rewrite Nn in Nv. injection Nv as <-. do 4 eexists. split; [apply (Mono dr i PR I)|]. split; [|split; [exact Bv|split; [exact Vv|exact Fv]]].
    pose proof (Mono dz k PZ K) as M. revert M. generalize (radius dz k) (radius dz (k + 1)) oz. intros a b c M. q_arith.
  - intros i k I K. destruct (Hc i k I K) as (vert' & Nv & Bv & _). exists vert'. split; [exact Nv|exact Bv].
Qed.
