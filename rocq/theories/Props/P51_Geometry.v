(** C51, C53, C54, C55, C61: selection of cells, cylindric grids, time series,
    interpolation and volumes. *)
From Coq Require Import String Ascii Arith ZArith QArith Qcanon Bool Lia Permutation Sorted List.
From Verif Require Import Base.Str Model.Py Model.Numpy Model.Mesh Model.MeshOps Model.Grid Model.Geometry Model.TimeSeries Proofs.SortsProof Spec.Order Spec.Extrude Spec.Grid Spec.Geometry
  Spec.MeshCells Spec.TimeSeries Proofs.VolumeProof Proofs.GeometryProof Proofs.TimeSeriesProof Proofs.CylinderProof.
Import ListNotations.
Local Open Scope nat_scope.

Definition q (z : Z) : Qc := Q2Qc (inject_Z z).
(** Two boxes side by side along x: [0, 1] and [1, 3]. *)
Definition two : mesh Qc Qc := Mesh 3
  [[q 0; q 0; q 0]; [q 1; q 0; q 0]; [q 3; q 0; q 0]; [q 0; q 1; q 0]; [q 1; q 1; q 0]; [q 3; q 1; q 0];
   [q 0; q 0; q 1]; [q 1; q 0; q 1]; [q 3; q 0; q 1]; [q 0; q 1; q 1]; [q 1; q 1; q 1]; [q 3; q 1; q 1]]
  [($"hexahedron", [[0; 1; 4; 3; 6; 7; 10; 9]; [1; 2; 5; 4; 7; 8; 11; 10]])]
  [] [($"T", [q 10; q 40])] [].
(** The same with a point which belongs to no cell. *)
Definition orphan : mesh Qc Qc := Mesh 3 (points two ++ [[q 9; q 9; q 9]]) (cells two) [] (cell_data two) [].

(** C51.  near gives, for each query point, the cell whose centre is nearest; the
    first of them when several are. *)
Theorem C51_near : forall V (m : mesh Qc V) queries is, near m queries = Ok is ->
  Forall2 (fun q i => exists tc c s, nth_error (typed_cells (cells m)) i = Some tc /\ centre_of (dim m) (points m) (snd tc) c /\ dist2 q c s /\
    forall j tc' c' s', nth_error (typed_cells (cells m)) j = Some tc' -> centre_of (dim m) (points m) (snd tc') c' -> dist2 q c' s' ->
      (s <= s')%Qc /\ (j < i -> (s < s')%Qc)) queries is.
Proof. exact @near_spec. Qed.
Print Assumptions C51_near.
Theorem C51_near_total : forall V (m : mesh Qc V) queries, typed_cells (cells m) <> [] -> sound (dim m) (points m) (cells m) ->
  (forall q, In q queries -> List.length q = dim m) -> exists is, near m queries = Ok is.
Proof. exact @near_total. Qed.
Print Assumptions C51_near_total.
(** C51.  The box filter gives, in order, the cells whose centre is in the box, when
    every length goes with a start and is not zero. *)
Theorem C51_box : forall V (m : mesh Qc V) x0 y0 z0 dx dy dz is, box_filter m x0 y0 z0 dx dy dz = Ok is ->
  dx <> Some 0%Qc -> dy <> Some 0%Qc -> dz <> Some 0%Qc -> (dx <> None -> x0 <> None) -> (dy <> None -> y0 <> None) -> (dz <> None -> z0 <> None) ->
  StronglySorted lt is /\
  forall i, In i is <-> exists tc x y z, nth_error (typed_cells (cells m)) i = Some tc /\ centre_of (dim m) (points m) (snd tc) [x; y; z] /\
    within x0 dx x /\ within y0 dy y /\ within z0 dz z.
Proof. exact @box_spec. Qed.
Print Assumptions C51_box.
Theorem C51_box_total : forall V (m : mesh Qc V) x0 y0 z0 dx dy dz, dim m = 3 -> cells m <> [] -> sound 3 (points m) (cells m) ->
  exists is, box_filter m x0 y0 z0 dx dy dz = Ok is.
Proof. exact @box_total. Qed.
Print Assumptions C51_box_total.
Example C51_case : near two [[q 0; q 0; q 0]; [q 3; q 5; q 0]] = Ok [0; 1] /\ box_filter two (Some (q 1)) None None (Some (q 2)) None None = Ok [1] /\
  box_filter two (Some (q 0)) (Some (q 0)) None (Some (q 3)) (Some (q 1)) None = Ok [0; 1].
Proof. vm_compute. auto. Qed.
Example C51_sound : sound (dim two) (points two) (cells two) /\ typed_cells (cells two) <> [].
Proof.
  split; [|discriminate]. split.
  - intros p I. cbn in I. repeat (destruct I as [<- | I]; [reflexivity|]). destruct I.
  - intros tc I. cbn in I. repeat (destruct I as [<- | I]; [split; [discriminate|]; intros n J; cbn in J; repeat (destruct J as [<- | J]; [cbn; lia|]); destruct J|]). destruct I.
Qed.
(** C51.  A length of zero selects without an upper bound, though only the plane at
    the start was asked for. *)
Theorem C51_flat_refuted : ~ forall (m : mesh Qc Qc) x0 is, box_filter m (Some x0) None None (Some 0%Qc) None None = Ok is ->
  forall i, In i is -> exists tc x y z, nth_error (typed_cells (cells m)) i = Some tc /\ centre_of (dim m) (points m) (snd tc) [x; y; z] /\ within (Some x0) (Some 0%Qc) x.
Proof.
  intros H. assert (E : box_filter two (Some (q 1)) None None (Some 0%Qc) None None = Ok [1]) by (vm_compute; reflexivity).
  destruct (H two (q 1) [1] E 1 (or_introl eq_refl)) as (tc & x & y & z & N & C & (_ & W)). injection N as <-. specialize (W _ _ eq_refl eq_refl).
  let c := eval vm_compute in (center 3 (points two) [1; 2; 5; 4; 7; 8; 11; 10]) in
  match c with Ok ?l => assert (C2 : centre_of 3 (points two) [1; 2; 5; 4; 7; 8; 11; 10] l) by (apply center_spec; vm_compute; reflexivity) end.
  pose proof (centre_unique _ _ _ _ _ C2 C) as U. injection U as <- _ _. apply W. vm_compute. reflexivity.
Qed.
Print Assumptions C51_flat_refuted.
(** C51.  A length without a start selects nothing. *)
Theorem C51_start_refuted : ~ forall (m : mesh Qc Qc) d is, box_filter m None None None (Some d) None None = Ok is -> d <> 0%Qc ->
  forall i tc x y z, nth_error (typed_cells (cells m)) i = Some tc -> centre_of (dim m) (points m) (snd tc) [x; y; z] -> within None (Some d) x -> In i is.
Proof.
  intros H. assert (E : box_filter two None None None (Some (q 9)) None None = Ok []) by (vm_compute; reflexivity).
  eapply (H two (q 9) [] E ltac:(discriminate) 1 ($"hexahedron", [1; 2; 5; 4; 7; 8; 11; 10]) _ _ _ eq_refl); [apply center_spec; vm_compute; reflexivity|split; discriminate].
Qed.
Print Assumptions C51_start_refuted.

(** C53.  Each cell of a cylindric grid stands for a ring: its nodes are at radii
    [x0] and [x1] and heights [z0] and [z1], its volume and the areas of its faces
    are those of the ring, whatever number stands for pi; the volumes add up to the
    cylinder. *)
Theorem C53_rings : forall pi dr dz origin_z layer material R H, dr <> [] -> dz <> [] -> Forall (fun d => 0 < d)%Qc dr -> Forall (fun d => 0 < d)%Qc dz ->
  adds_up dr R -> adds_up dz H -> let oz := match origin_z with Some z => z | None => (- H)%Qc end in
  exists m cs vs fs, cylindric_grid pi dr dz origin_z layer material = Ok (m, vs, fs) /\ cells m = [($"hexahedron", cs)] /\
    List.length cs = List.length dr * List.length dz /\ List.length vs = List.length cs /\ List.length fs = List.length cs /\
    adds_up vs (pi * (R * R) * H)%Qc /\
    (forall n vert, nth_error cs n = Some vert -> exists x0 x1 z0 z1, (x0 < x1)%Qc /\ (z0 < z1)%Qc /\
      map (nth_error (points m)) vert = map Some (box x0 x1 (Q2Qc (Qmake (-1) 2)) (Q2Qc (Qmake 1 2)) z0 z1) /\
      nth_error vs n = Some (pi * (x1 * x1 - x0 * x0) * (z1 - z0))%Qc /\
      nth_error fs n = Some [(pi * (x1 * x1 - x0 * x0))%Qc; (pi * (x1 * x1 - x0 * x0))%Qc; ((x1 - x0) * (z1 - z0))%Qc; (rational 2 * pi * x1 * (z1 - z0))%Qc;
        ((x1 - x0) * (z1 - z0))%Qc; (rational 2 * pi * x0 * (z1 - z0))%Qc]) /\
    (forall i k, i < List.length dr -> k < List.length dz -> exists vert, nth_error cs (rank3 layer (List.length dr) 1 (List.length dz) i 0 k) = Some vert /\
      map (nth_error (points m)) vert = map Some (box (level Qcplus 0 dr i) (level Qcplus 0 dr (i + 1)) (Q2Qc (Qmake (-1) 2)) (Q2Qc (Qmake 1 2))
        (level Qcplus 0 dz k + oz) (level Qcplus 0 dz (k + 1) + oz))%Qc).
Proof. exact cylinder_cells. Qed.
Print Assumptions C53_rings.
Theorem C53_refused : forall pi dr dz origin_z layer material, (exists d, (In d dr \/ In d dz) /\ (d <= 0)%Qc) ->
  cylindric_grid pi dr dz origin_z layer material = Err ValueError.
Proof. exact cylinder_refused. Qed.
Print Assumptions C53_refused.
Example C53_case : match cylindric_grid (q 3) [q 1; q 2] [q 5; q 7] None false $"dfalt" with
  | Ok (m, vs, fs) => map this vs = [21; 15; 168; 120]%Q /\ nth_error (map (map this) fs) 2 = Some [24; 24; 14; 126; 14; 42]%Q
  | Err _ => False end.
Proof. vm_compute. auto. Qed.

(** C54.  The steps are written in increasing time, each with its own data; reading
    puts the arrays of the blocks together again.  [argsort] is any function with the
    properties of numpy.argsort. *)
Theorem C54_steps : forall T P V (leb : T -> T -> bool) (argsort : list T -> list nat) (of_nat : nat -> T), sorts leb argsort ->
  forall cells (pd : list (list (str * P))) (cd : list (list (str * list V))) (ts : list T),
  pd <> [] -> cd <> [] -> List.length cd = List.length pd -> List.length ts = List.length pd ->
  exists out, write_time_series argsort of_nat cells (Some pd) (Some cd) (Some ts) = Ok out /\
    StronglySorted (fun s s' => leb (fst (fst s)) (fst (fst s')) = true) out /\
    Permutation (map read_step out) (TimeSeries.triples ts pd cd).
Proof. intros T P V leb argsort of_nat Hs cells. exact (write_steps leb argsort of_nat Hs cells). Qed.
Print Assumptions C54_steps.
(** A function which sorts so. *)
Example C54_sorts : sorts Z.leb (sorted_ranks Z.leb).
Proof. apply sorted_ranks_sorts; [intros a b; destruct (Z.le_ge_cases a b); [left|right]; now apply Z.leb_le|intros a b c; rewrite !Z.leb_le; apply Z.le_trans]. Qed.
(** C54.  One piece per block, of its size. *)
Theorem C54_blocks : forall T P V (argsort : list T -> list nat) (of_nat : nat -> T) cells (pd : option (list (list (str * P)))) (cd : list (list (str * list V))) ts out,
  cells <> [] -> (forall d k v, In d cd -> In (k, v) d -> List.length v = list_sum (sizes cells)) ->
  write_time_series argsort of_nat cells pd (Some cd) ts = Ok out ->
  forall s k pieces, In s out -> In (k, pieces) (snd s) -> map (@List.length V) pieces = sizes cells.
Proof. intros T P V argsort of_nat cells. exact (write_blocks argsort of_nat cells). Qed.
Print Assumptions C54_blocks.
(** C54.  Without times, the times are the step numbers; without cell data, there are none. *)
Theorem C54_defaults : forall T P V (argsort : list T -> list nat) (of_nat : nat -> T) cells,
  (forall (pd : list (list (str * P))) ts, pd <> [] ->
     @write_time_series T P V argsort of_nat cells (Some pd) None ts = write_time_series argsort of_nat cells (Some pd) (Some (map (fun _ => []) pd)) ts) /\
  (forall (pd : option (list (list (str * P)))) (cd : option (list (list (str * list V)))) out, write_time_series argsort of_nat cells pd cd None = Ok out ->
     exists nt, write_time_series argsort of_nat cells pd cd (Some (map of_nat (seq 0 nt))) = Ok out).
Proof. intros. split; [intros; now apply write_defaults_points|intros; now apply write_defaults_times]. Qed.
Print Assumptions C54_defaults.
Example C54_case : write_time_series (fun _ => [2; 0; 1]) Z.of_nat [($"tetra", [[0]; [1]]); ($"wedge", [[2]])]
    (Some [[($"p", 1)]; [($"p", 2)]; [($"p", 3)]]) (Some [[($"c", [10; 11; 12])]; [($"c", [20; 21; 22])]; [($"c", [30; 31; 32])]]) (Some [5; 8; 2]%Z) =
  Ok [(2%Z, [($"p", 3)], [($"c", [[30; 31]; [32]])]); (5%Z, [($"p", 1)], [($"c", [[10; 11]; [12]])]); (8%Z, [($"p", 2)], [($"c", [[20; 21]; [22]])])].
Proof. reflexivity. Qed.

(** C55.  Data interpolated to the points stay within the values of the cells around
    each point; the other point data stay. *)
Theorem C55_points : forall m m' : mesh Qc Qc, cell_data_to_point_data m = Ok m' -> NoDup (map fst (cell_data m)) ->
  points m' = points m /\ cells m' = cells m /\ cell_data m' = [] /\
  (forall k, ~ In k (map fst (cell_data m)) -> value k (point_data m') = value k (point_data m)) /\
  forall k vals, In (k, vals) (cell_data m) -> exists out, value k (point_data m') = Some out /\ List.length out = List.length (points m) /\
    forall p v, nth_error out p = Some v -> between (cell_values (cells m) vals p) v.
Proof. exact to_points. Qed.
Print Assumptions C55_points.
(** C55.  They are averages of the cells around the point, weighted by the volumes. *)
Theorem C55_weights : forall (m m' : mesh Qc Qc) vol, cell_data_to_point_data m = Ok m' -> volumes m = Ok vol -> NoDup (map fst (cell_data m)) ->
  (forall tc, In tc (typed_cells (cells m)) -> NoDup (snd tc)) ->
  forall k vals out p v, In (k, vals) (cell_data m) -> value k (point_data m') = Some out -> nth_error out p = Some v ->
  exists is xs ws total, StronglySorted lt is /\ (forall i, In i is <-> exists tc, nth_error (typed_cells (cells m)) i = Some tc /\ In p (snd tc)) /\
    Forall2 (fun i x => nth_error vals i = Some x) is xs /\ Forall2 (fun i w => nth_error vol i = Some w) is ws /\
    adds_up ws total /\ total <> 0%Qc /\ adds_up (map (fun xw => fst xw * snd xw)%Qc (combine xs ws)) (v * total)%Qc.
Proof. exact to_points_weights. Qed.
Print Assumptions C55_weights.
Theorem C55_points_total : forall (m : mesh Qc Qc) vol, volumes m = Ok vol -> sound 3 (points m) (cells m) ->
  (forall k vals, In (k, vals) (cell_data m) -> List.length vals = List.length (typed_cells (cells m))) ->
  (forall p, p < List.length (points m) -> exists i tc v, nth_error (typed_cells (cells m)) i = Some tc /\ In p (snd tc) /\ nth_error vol i = Some v /\ (0 < v)%Qc) ->
  exists m', cell_data_to_point_data m = Ok m'.
Proof. exact to_points_total. Qed.
Print Assumptions C55_points_total.
(** C55.  Data interpolated to the cells stay within the values of their nodes. *)
Theorem C55_cells : forall m m' : mesh Qc Qc, point_data_to_cell_data m = Ok m' -> NoDup (map fst (point_data m)) ->
  points m' = points m /\ cells m' = cells m /\ point_data m' = [] /\
  (forall k, ~ In k (map fst (point_data m)) -> value k (cell_data m') = value k (cell_data m)) /\
  forall k vals, In (k, vals) (point_data m) -> exists out, value k (cell_data m') = Some out /\ List.length out = List.length (typed_cells (cells m)) /\
    forall i v tc, nth_error out i = Some v -> nth_error (typed_cells (cells m)) i = Some tc -> between (node_values (snd tc) vals) v.
Proof. exact to_cells. Qed.
Print Assumptions C55_cells.
Theorem C55_cells_total : forall (m : mesh Qc Qc) d, sound d (points m) (cells m) ->
  (forall k vals, In (k, vals) (point_data m) -> List.length vals = List.length (points m)) -> exists m', point_data_to_cell_data m = Ok m'.
Proof. exact to_cells_total. Qed.
Print Assumptions C55_cells_total.
Example C55_case : match cell_data_to_point_data two with
  | Ok m' => map (fun kv => (fst kv, map this (snd kv))) (point_data m') = [($"T", [10; 30; 40; 10; 30; 40; 10; 30; 40; 10; 30; 40]%Q)] /\
      match point_data_to_cell_data m' with Ok m'' => map (fun kv => (fst kv, map this (snd kv))) (cell_data m'') = [($"T", [20; 35]%Q)] | Err _ => False end
  | Err _ => False end.
Proof. vm_compute. auto. Qed.
(** C55.  With a point which belongs to no cell there is no interpolation. *)
Theorem C55_orphan_refuted : ~ forall (m : mesh Qc Qc) vol, volumes m = Ok vol -> sound 3 (points m) (cells m) -> Forall (fun v => 0 < v)%Qc vol ->
  (forall k vals, In (k, vals) (cell_data m) -> List.length vals = List.length (typed_cells (cells m))) -> exists m', cell_data_to_point_data m = Ok m'.
Proof.
  intros H. destruct (volumes orphan) as [vol|] eqn:Ev; [|vm_compute in Ev; discriminate]. destruct (H orphan vol) as (m' & E).
  - exact Ev.
  - split.
    + intros p I. cbn in I. repeat (destruct I as [<- | I]; [reflexivity|]). destruct I.
    + intros tc I. cbn in I. repeat (destruct I as [<- | I]; [split; [discriminate|]; intros n J; cbn in J; repeat (destruct J as [<- | J]; [cbn; lia|]); destruct J|]). destruct I.
  - vm_compute in Ev. injection Ev as <-. apply Forall_cons; [reflexivity|]. apply Forall_cons; [reflexivity|apply Forall_nil].
  - intros k vals [I | []]. injection I as <- <-. reflexivity.
  - assert (F : match cell_data_to_point_data orphan with Ok _ => false | Err _ => true end = true) by (vm_compute; reflexivity). rewrite E in F. discriminate.
Qed.
Print Assumptions C55_orphan_refuted.

(** C61.  Volumes: one per cell, none negative, the same after a translation; and
    there are volumes for every mesh of solid cells. *)
Theorem C61_volumes : forall V (m : mesh Qc V),
  (forall vs, volumes m = Ok vs -> List.length vs = List.length (typed_cells (cells m)) /\ Forall (fun v => 0 <= v)%Qc vs) /\
  (forall t, volumes (Mesh (dim m) (map (moved t) (points m)) (cells m) (point_data m) (cell_data m) (field_data m)) = volumes m) /\
  (cells m <> [] -> (forall b, In b (cells m) -> snd b <> []) -> sound 3 (points m) (cells m) -> (forall tc, In tc (typed_cells (cells m)) -> solid_cell tc) -> exists vs, volumes m = Ok vs).
Proof. intros V m. split; [exact (volumes_nonneg m)|]. split; [exact (volumes_moved m)|exact (volumes_total m)]. Qed.
Print Assumptions C61_volumes.
(** C61.  Cells along three edges [a], [b], [c]: the box, and its half, third and sixth. *)
Theorem C61_edges : forall V (m : mesh Qc V) vs i o a b c, volumes m = Ok vs ->
  (cell_at (points m) (cells m) i $"hexahedron" [o; plus o a; plus (plus o a) b; plus o b; plus o c; plus (plus o a) c; plus (plus (plus o a) b) c; plus (plus o b) c] ->
   exists v, nth_error vs i = Some v /\ magnitude (det a b c) v) /\
  (cell_at (points m) (cells m) i $"wedge" [o; plus o a; plus o b; plus o c; plus (plus o a) c; plus (plus o b) c] ->
   exists v, nth_error vs i = Some v /\ magnitude (det a b c) (rational 2 * v)%Qc) /\
  (cell_at (points m) (cells m) i $"pyramid" [o; plus o a; plus (plus o a) b; plus o b; plus o c] ->
   exists v, nth_error vs i = Some v /\ magnitude (det a b c) (rational 3 * v)%Qc) /\
  (cell_at (points m) (cells m) i $"tetra" [o; plus o a; plus o b; plus o c] ->
   exists v, nth_error vs i = Some v /\ magnitude (det a b c) (rational 6 * v)%Qc).
Proof.
  intros V m vs i o a b c E. split; [exact (parallelepiped m vs i o a b c E)|]. split; [exact (half_parallelepiped m vs i o a b c E)|].
  split; [exact (third_parallelepiped m vs i o a b c E)|exact (sixth_parallelepiped m vs i o a b c E)].
Qed.
Print Assumptions C61_edges.
(** C61.  In general the volume is the one enclosed by the faces: six times it is the
    sum of the cones over the faces, when the faces are plane and the tetrahedra the
    cell is cut into are oriented alike, as those of a convex cell are. *)
Theorem C61_hexahedron : forall V (m : mesh Qc V) vs i p0 p1 p2 p3 p4 p5 p6 p7 s, volumes m = Ok vs ->
  cell_at (points m) (cells m) i $"hexahedron" [p0; p1; p2; p3; p4; p5; p6; p7] ->
  same_sign s [six p0 p1 p3 p4; six p1 p4 p5 p6; six p1 p2 p3 p6; six p3 p4 p6 p7; six p1 p3 p4 p6] ->
  planar p0 p3 p2 p1 -> planar p0 p1 p5 p4 -> planar p2 p3 p7 p6 -> planar p0 p4 p7 p3 ->
  exists v, nth_error vs i = Some v /\
    (rational 6 * v = s * (cone4 p0 p3 p2 p1 + cone4 p4 p5 p6 p7 + cone4 p0 p1 p5 p4 + cone4 p1 p2 p6 p5 + cone4 p2 p3 p7 p6 + cone4 p0 p4 p7 p3))%Qc.
Proof. exact @hexahedron_enclosed. Qed.
Print Assumptions C61_hexahedron.
Theorem C61_wedge : forall V (m : mesh Qc V) vs i p0 p1 p2 p3 p4 p5 s, volumes m = Ok vs -> cell_at (points m) (cells m) i $"wedge" [p0; p1; p2; p3; p4; p5] ->
  same_sign s [six p0 p1 p2 p5; six p0 p1 p5 p4; six p0 p3 p4 p5] ->
  exists v, nth_error vs i = Some v /\
    (rational 6 * v = s * (cone3 p0 p2 p1 + cone3 p3 p4 p5 + cone4 p0 p1 p4 p3 + cone4 p1 p2 p5 p4 + cone4 p0 p3 p5 p2))%Qc.
Proof. exact @wedge_enclosed. Qed.
Print Assumptions C61_wedge.
Theorem C61_pyramid : forall V (m : mesh Qc V) vs i p0 p1 p2 p3 p4 s, volumes m = Ok vs -> cell_at (points m) (cells m) i $"pyramid" [p0; p1; p2; p3; p4] ->
  same_sign s [six p0 p1 p3 p4; six p1 p2 p3 p4] -> planar p0 p3 p2 p1 ->
  exists v, nth_error vs i = Some v /\
    (rational 6 * v = s * (cone3 p0 p1 p4 + cone3 p1 p2 p4 + cone3 p2 p3 p4 + cone3 p3 p0 p4 + cone4 p0 p3 p2 p1))%Qc.
Proof. exact @pyramid_enclosed. Qed.
Print Assumptions C61_pyramid.
Example C61_case : match volumes two with Ok vs => map this vs = [1; 2]%Q | Err _ => False end /\
  cell_at (points two) (cells two) 1 $"hexahedron" (let o := (q 1, q 0, q 0) in let a := (q 2, q 0, q 0) in let b := (q 0, q 1, q 0) in let c := (q 0, q 0, q 1) in
    [o; plus o a; plus (plus o a) b; plus o b; plus o c; plus (plus o a) c; plus (plus (plus o a) b) c; plus (plus o b) c]).
Proof.
  split; [vm_compute; reflexivity|]. exists [1; 2; 5; 4; 7; 8; 11; 10]. split; [reflexivity|]. cbn zeta.
  repeat (apply Forall2_cons; [cbn; repeat f_equal; apply Qc_is_canon; vm_compute; reflexivity|]). apply Forall2_nil.
Qed.
(** A frustum: not a parallelepiped, with plane faces. *)
Definition frustum : mesh Qc Qc := Mesh 3
  [[q 0; q 0; q 0]; [q 4; q 0; q 0]; [q 4; q 4; q 0]; [q 0; q 4; q 0]; [q 1; q 1; q 3]; [q 3; q 1; q 3]; [q 3; q 3; q 3]; [q 1; q 3; q 3]]
  [($"hexahedron", [[0; 1; 2; 3; 4; 5; 6; 7]])] [] [] [].
Example C61_frustum : match volumes frustum with Ok vs => map this vs = [28]%Q | Err _ => False end /\
  let p x y z := (q (Z.of_nat x), q (Z.of_nat y), q (Z.of_nat z)) in
  same_sign 1 [six (p 0 0 0) (p 4 0 0) (p 0 4 0) (p 1 1 3); six (p 4 0 0) (p 1 1 3) (p 3 1 3) (p 3 3 3); six (p 4 0 0) (p 4 4 0) (p 0 4 0) (p 3 3 3);
    six (p 0 4 0) (p 1 1 3) (p 3 3 3) (p 1 3 3); six (p 4 0 0) (p 0 4 0) (p 1 1 3) (p 3 3 3)] /\
  planar (p 0 0 0) (p 0 4 0) (p 4 4 0) (p 4 0 0) /\ planar (p 0 0 0) (p 4 0 0) (p 3 1 3) (p 1 1 3) /\
  planar (p 4 4 0) (p 0 4 0) (p 1 3 3) (p 3 3 3) /\ planar (p 0 0 0) (p 1 1 3) (p 1 3 3) (p 0 4 0).
Proof.
  split; [vm_compute; reflexivity|]. cbn zeta. split; [|repeat split; unfold planar; apply Qc_is_canon; vm_compute; reflexivity]. split; [now left|].
  repeat (apply Forall_cons; [vm_compute; discriminate|]). apply Forall_nil.
Qed.
