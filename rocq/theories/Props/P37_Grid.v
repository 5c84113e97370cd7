(** C37, C40, C52: structured grids, voxels and voxelised export. *)
From Coq Require Import String Ascii Arith ZArith QArith Qcanon Bool Lia Sorted List.
From Verif Require Import Base.Str Model.Py Model.Numpy Model.Mesh Model.MeshOps Model.Grid Spec.Extrude Spec.Grid Proofs.GridProof Proofs.VoxelProof.
Import ListNotations.
Local Open Scope nat_scope.

Definition q (z : Z) : Qc := Q2Qc (inject_Z z).

(** C40.  The cell of interval [i] along x, [j] along y and [k] along z is the box
    of these intervals, at its rank by columns or by layers, whatever the
    arithmetic of the coordinates. *)
Theorem C40_grid3 : forall (C : Type) (add : C -> C -> C) (opp : C -> C) (zero : C) dx dy dz origin layer material ox oy oz,
  dx <> [] -> dy <> [] -> dz <> [] ->
  origin = Some [ox; oy; oz] \/ (origin = None /\ ox = zero /\ oy = zero /\ oz = opp (total add zero dz)) ->
  let nx := List.length dx in let ny := List.length dy in let nz := List.length dz in
  let X i := add (level add zero dx i) ox in let Y j := add (level add zero dy j) oy in let Z k := add (level add zero dz k) oz in
  exists m cs, structured_grid add opp zero dx dy (Some dz) origin layer material = Ok m /\ dim m = 3 /\ cells m = [($"hexahedron", cs)] /\
    List.length cs = nx * ny * nz /\
    cell_data m = [($"material", repeat 1%Z (nx * ny * nz))] /\ field_data m = [(material, (1, 3)%Z)] /\
    forall i j k, i < nx -> j < ny -> k < nz -> exists vs, nth_error cs (rank3 layer nx ny nz i j k) = Some vs /\
      map (nth_error (points m)) vs = map Some (box (X i) (X (i + 1)) (Y j) (Y (j + 1)) (Z k) (Z (k + 1))).
Proof. exact @grid3. Qed.
Print Assumptions C40_grid3.
Theorem C40_grid2 : forall (C : Type) (add : C -> C -> C) (opp : C -> C) (zero : C) dx dy origin layer material ox oy, dx <> [] -> dy <> [] ->
  origin = Some [ox; oy] \/ (origin = None /\ ox = zero /\ oy = zero) ->
  let nx := List.length dx in let ny := List.length dy in
  let X i := add (level add zero dx i) ox in let Y j := add (level add zero dy j) oy in
  exists m cs, structured_grid add opp zero dx dy None origin layer material = Ok m /\ dim m = 3 /\ cells m = [($"quad", cs)] /\
    List.length cs = nx * ny /\
    cell_data m = [($"material", repeat 1%Z (nx * ny))] /\ field_data m = [(material, (1, 3)%Z)] /\
    forall i j, i < nx -> j < ny -> exists vs, nth_error cs (rank2 layer nx ny i j) = Some vs /\
      map (nth_error (points m)) vs = map Some (rectangle (X i) (X (i + 1)) (Y j) (Y (j + 1)) zero).
Proof. exact @grid2. Qed.
Print Assumptions C40_grid2.
(** C40.  Each rank belongs to one cell. *)
Theorem C40_ranks : forall layer nx ny nz,
  (forall n, n < nx * ny * nz -> exists i j k, i < nx /\ j < ny /\ k < nz /\ n = rank3 layer nx ny nz i j k) /\
  (forall i j k i' j' k', i < nx -> j < ny -> k < nz -> i' < nx -> j' < ny -> k' < nz ->
     rank3 layer nx ny nz i j k = rank3 layer nx ny nz i' j' k' -> i = i' /\ j = j' /\ k = k').
Proof. intros. split; [apply rank3_onto|intros *; apply rank3_inj]. Qed.
Print Assumptions C40_ranks.
Example C40_grid3_case : exists m, structured_grid Z.add Z.opp 0%Z [1; 2]%Z [5]%Z (Some [3; 4]%Z) None false $"dfalt" = Ok m /\
  cells m = [($"hexahedron", [[1; 7; 10; 4; 2; 8; 11; 5]; [0; 6; 9; 3; 1; 7; 10; 4]; [7; 13; 16; 10; 8; 14; 17; 11]; [6; 12; 15; 9; 7; 13; 16; 10]])] /\
  nth_error (points m) 0 = Some [0; 0; -7]%Z /\ nth_error (points m) 17 = Some [3; 5; 0]%Z.
Proof. eexists. split; [vm_compute; reflexivity|]. vm_compute. auto. Qed.

(** C52.  The bounds found along an axis have the coordinates as centres. *)
Theorem C52_centres : forall xs x0 v, voronoi1d xs x0 = Ok v -> 1 < List.length xs ->
  List.length v = List.length xs + 1 /\ nth_error v 0 = Some x0 /\ (exists a, nth_error xs 0 = Some a /\ (x0 < a)%Qc) /\
  forall i c, nth_error xs i = Some c -> exists a b, nth_error v i = Some a /\ nth_error v (i + 1) = Some b /\ ((a + b) / Q2Qc 2 = c)%Qc.
Proof. exact voronoi_spec. Qed.
Print Assumptions C52_centres.
(** C52.  Voxelising the centres of a grid, given in any order, gives the grid. *)
Theorem C52_recovers : forall dx dy dz x0 y0 z0 pts layer material,
  1 < List.length dx -> 1 < List.length dy -> 1 < List.length dz ->
  Forall (fun w => (0 < w)%Qc) dx -> Forall (fun w => (0 < w)%Qc) dy -> Forall (fun w => (0 < w)%Qc) dz ->
  full_grid (centres x0 dx) (centres y0 dy) (centres z0 dz) pts ->
  voxelize pts [x0; y0; z0] layer material = qgrid dx dy (Some dz) (Some [x0; y0; z0]) layer material.
Proof. exact voxelize_recovers. Qed.
Print Assumptions C52_recovers.
Theorem C52_refused : forall xs a x0, 1 < List.length xs -> nth_error xs 0 = Some a -> (a <= x0)%Qc -> voronoi1d xs x0 = Err ValueError.
Proof. exact voronoi_refused. Qed.
Print Assumptions C52_refused.
Example C52_case : Forall (fun w => (0 < w)%Qc) [q 2; q 4] /\ centres (q 0) [q 2; q 4] = [q 1; q 4] /\ voronoi1d [q 1; q 4] (q 0) = Ok [q 0; q 2; q 6].
Proof. split; [repeat constructor|]. split; vm_compute; f_equal; repeat (f_equal; try (apply Qc_is_canon; reflexivity)). Qed.
(** C52 fails for other coordinates: sizes can be zero or negative. *)
Theorem C52_sizes_refuted : ~ (forall xs x0 v, increasing xs -> voronoi1d xs x0 = Ok v -> Forall (fun w => (0 < w)%Qc) (qdiff v)).
Proof.
  intros H. assert (I : increasing [q 2; q 3]).
  { intros [|[|i]] [|[|j]] x y L X Y; cbn in *; try lia; try (destruct i; discriminate); try (destruct j; discriminate).
    injection X as <-. injection Y as <-. reflexivity. }
  specialize (H [q 2; q 3] (q 0) [q 0; q 4; q 2] I). assert (E : voronoi1d [q 2; q 3] (q 0) = Ok [q 0; q 4; q 2]).
  { vm_compute. reflexivity. }
  specialize (H E). inversion H as [|? ? _ H2]. inversion H2 as [|? ? H3]. subst. vm_compute in H3. discriminate.
Qed.
Print Assumptions C52_sizes_refuted.
(** C52 fails for a single coordinate: the interval has size one and starts at the
    origin, wherever the point is. *)
Theorem C52_single_refuted : ~ (forall x x0 v, voronoi1d [x] x0 = Ok v -> exists a b, v = [a; b] /\ ((a + b) / Q2Qc 2 = x)%Qc).
Proof.
  intros H. destruct (H (q 5) (q 0) _ eq_refl) as (a & b & E & X). injection E as <- <-. apply (f_equal this) in X. vm_compute in X. discriminate.
Qed.
Print Assumptions C52_single_refuted.

(** C37.  What each voxel gets: the voxel of rank [n] has the data of element
    number [n] by height, then y, then x. *)
Theorem C37_export : forall (V : Type) xs ys zs pts x0 y0 z0 layer (data : list (str * list V)) m d, export_voxels pts [x0; y0; z0] layer data = Ok (m, d) ->
  full_grid xs ys zs pts -> increasing xs -> increasing ys -> increasing zs -> xs <> [] -> ys <> [] -> zs <> [] ->
  let nx := List.length xs in let ny := List.length ys in let nz := List.length zs in
  exists vx vy vz cs, voronoi1d xs x0 = Ok vx /\ voronoi1d ys y0 = Ok vy /\ voronoi1d zs z0 = Ok vz /\
    cells m = [($"hexahedron", cs)] /\ List.length cs = nx * ny * nz /\
    map fst d = filter (fun l => negb (streqb l $"X" || streqb l $"Y" || streqb l $"Z")) (map fst data) /\
    forall i j k, i < nx -> j < ny -> k < nz ->
      (exists vs ax bx ay by_ az bz, nth_error cs (rank3 layer nx ny nz i j k) = Some vs /\ map (nth_error (points m)) vs = map Some (box ax bx ay by_ az bz) /\
        nth_error vx i = Some ax /\ nth_error vx (i + 1) = Some bx /\ nth_error vy j = Some ay /\ nth_error vy (j + 1) = Some by_ /\ nth_error vz k = Some az /\ nth_error vz (k + 1) = Some bz) /\
      exists e x y z, nth_error pts e = Some [x; y; z] /\
        (let '(a, b, c) := source layer nx ny nz i j k in nth_error xs a = Some x /\ nth_error ys b = Some y /\ nth_error zs c = Some z) /\
        Forall (fun kv => exists vals, In (fst kv, vals) data /\ nth_error (snd kv) (rank3 layer nx ny nz i j k) = nth_error vals e) d.
Proof. exact @export_spec. Qed.
Print Assumptions C37_export.
(** C37.  By layers these are the data of the layer at the mirrored height. *)
Theorem C37_mirror : forall nx ny nz i j k, i < nx -> j < ny -> k < nz -> source true nx ny nz i j k = (i, j, nz - 1 - k).
Proof. exact source_layer. Qed.
Print Assumptions C37_mirror.
(** C37.  With one layer of elements, exported by layers or in one row, each voxel
    gets the data of the element at its place. *)
Theorem C37_right : forall (V : Type) xs ys zs pts x0 y0 z0 layer (data : list (str * list V)) m d, export_voxels pts [x0; y0; z0] layer data = Ok (m, d) ->
  full_grid xs ys zs pts -> increasing xs -> increasing ys -> increasing zs -> xs <> [] -> ys <> [] ->
  List.length zs = 1 -> layer = true \/ List.length xs = 1 \/ List.length ys = 1 ->
  let nx := List.length xs in let ny := List.length ys in let nz := List.length zs in
  exists vx vy vz cs, voronoi1d xs x0 = Ok vx /\ voronoi1d ys y0 = Ok vy /\ voronoi1d zs z0 = Ok vz /\
    cells m = [($"hexahedron", cs)] /\ List.length cs = nx * ny * nz /\
    map fst d = filter (fun l => negb (streqb l $"X" || streqb l $"Y" || streqb l $"Z")) (map fst data) /\
    forall i j k, i < nx -> j < ny -> k < nz ->
      (exists vs ax bx ay by_ az bz, nth_error cs (rank3 layer nx ny nz i j k) = Some vs /\ map (nth_error (points m)) vs = map Some (box ax bx ay by_ az bz) /\
        nth_error vx i = Some ax /\ nth_error vx (i + 1) = Some bx /\ nth_error vy j = Some ay /\ nth_error vy (j + 1) = Some by_ /\ nth_error vz k = Some az /\ nth_error vz (k + 1) = Some bz) /\
      exists e x y z, nth_error pts e = Some [x; y; z] /\ nth_error xs i = Some x /\ nth_error ys j = Some y /\ nth_error zs k = Some z /\
        Forall (fun kv => exists vals, In (fst kv, vals) data /\ nth_error (snd kv) (rank3 layer nx ny nz i j k) = nth_error vals e) d.
Proof. exact @export_right. Qed.
Print Assumptions C37_right.
Definition square : list (list Qc) := [[q 1; q 1; q 0]; [q 3; q 1; q 0]; [q 1; q 3; q 0]; [q 3; q 3; q 0]].
Definition pile : list (list Qc) := [[q 0; q 0; q 1]; [q 0; q 0; q 3]].
Definition origin0 : list Qc := [q 0; q 0; q 0].
Example C37_right_case : exists m, export_voxels square origin0 true [($"X", [0; 0; 0; 0]); ($"T", [11; 31; 13; 33])] = Ok (m, [($"T", [11; 31; 13; 33])]).
Proof. eexists. vm_compute. reflexivity. Qed.
(** C37 fails with two layers, whatever the order, and with two rows in the default
    order: voxels get data of elements elsewhere. *)
Lemma full_square : full_grid [q 1; q 3] [q 1; q 3] [q 0] square.
Proof.
  split.
  - repeat (constructor; [intros I; cbn in I; repeat (destruct I as [I | I]; [apply (f_equal (map this)) in I; vm_compute in I; discriminate I|]); destruct I|]). constructor.
  - intros p. split.
    + intros I. cbn in I. repeat (destruct I as [<- | I]; [do 3 eexists; split; [reflexivity|]; cbn; auto|]). destruct I.
    + intros (x & y & z & -> & X & Y & Z). cbn in X, Y, Z. destruct X as [<- | [<- | []]], Y as [<- | [<- | []]], Z as [<- | []]; cbn; auto 6.
Qed.
Lemma full_pile : full_grid [q 0] [q 0] [q 1; q 3] pile.
Proof.
  split.
  - repeat (constructor; [intros I; cbn in I; repeat (destruct I as [I | I]; [apply (f_equal (map this)) in I; vm_compute in I; discriminate I|]); destruct I|]). constructor.
  - intros p. split.
    + intros I. cbn in I. repeat (destruct I as [<- | I]; [do 3 eexists; split; [reflexivity|]; cbn; auto|]). destruct I.
    + intros (x & y & z & -> & X & Y & Z). cbn in X, Y, Z. destruct X as [<- | []], Y as [<- | []], Z as [<- | [<- | []]]; cbn; auto 6.
Qed.
Theorem C37_layers_refuted : forall layer, ~ (forall xs ys zs pts x0 y0 z0 (vals : list nat) m w i j k e x y z,
  export_voxels pts [x0; y0; z0] layer [($"T", vals)] = Ok (m, [($"T", w)]) -> full_grid xs ys zs pts ->
  nth_error xs i = Some x -> nth_error ys j = Some y -> nth_error zs k = Some z -> nth_error pts e = Some [x; y; z] ->
  nth_error w (rank3 layer (List.length xs) (List.length ys) (List.length zs) i j k) = nth_error vals e).
Proof.
  intros layer H. destruct (export_voxels pile origin0 layer [($"T", [10; 30])]) as [[m w]|] eqn:E; [|destruct layer; vm_compute in E; discriminate].
  assert (W : w = [($"T", [10; 30])]) by (destruct layer; apply (f_equal (fun r => match r with Ok (_, w) => w | Err _ => [] end)) in E; vm_compute in E; now symmetry). subst w.
  specialize (H [q 0] [q 0] [q 1; q 3] pile (q 0) (q 0) (q 0) [10; 30] m [10; 30] 0 0 0 0 (q 0) (q 0) (q 1) E full_pile eq_refl eq_refl eq_refl eq_refl).
  destruct layer; vm_compute in H; discriminate.
Qed.
Print Assumptions C37_layers_refuted.
Theorem C37_columns_refuted : ~ (forall xs ys zs pts x0 y0 z0 (vals : list nat) m w i j k e x y z, List.length zs = 1 ->
  export_voxels pts [x0; y0; z0] false [($"T", vals)] = Ok (m, [($"T", w)]) -> full_grid xs ys zs pts ->
  nth_error xs i = Some x -> nth_error ys j = Some y -> nth_error zs k = Some z -> nth_error pts e = Some [x; y; z] ->
  nth_error w (rank3 false (List.length xs) (List.length ys) (List.length zs) i j k) = nth_error vals e).
Proof.
  intros H. destruct (export_voxels square origin0 false [($"T", [11; 31; 13; 33])]) as [[m w]|] eqn:E; [|vm_compute in E; discriminate].
  assert (W : w = [($"T", [11; 31; 13; 33])]) by (apply (f_equal (fun r => match r with Ok (_, w) => w | Err _ => [] end)) in E; vm_compute in E; now symmetry). subst w.
  specialize (H [q 1; q 3] [q 1; q 3] [q 0] square (q 0) (q 0) (q 0) [11; 31; 13; 33] m [11; 31; 13; 33] 1 0 0 1 (q 3) (q 1) (q 0) eq_refl E full_square eq_refl eq_refl eq_refl eq_refl).
  vm_compute in H. discriminate.
Qed.
Print Assumptions C37_columns_refuted.
(** C37.  The points exported: the coordinates of the output along the axes where
    they vary, zero along the others; x alone when nothing varies. *)
Theorem C37_points : forall n X Y Z, n <> 0 -> Forall (fun o => match o with Some l => List.length l = n | None => True end) [X; Y; Z] -> (X <> None \/ Y <> None \/ Z <> None) ->
  let C a := coordinate n (nth a [X; Y; Z] None) in
  exists pts axis, get_points n X Y Z = Ok (pts, axis) /\ List.length pts = n /\ StronglySorted lt axis /\
    ((exists a, a < 3 /\ varying (C a)) -> forall a, In a axis <-> a < 3 /\ varying (C a)) /\
    (~ (exists a, a < 3 /\ varying (C a)) -> axis = [0]) /\
    forall i p, nth_error pts i = Some p -> List.length p = 3 /\ forall a, a < 3 -> (In a axis -> nth_error p a = nth_error (C a) i) /\ (~ In a axis -> nth_error p a = Some (Q2Qc 0)).
Proof. exact get_points_spec. Qed.
Print Assumptions C37_points.
Theorem C37_no_points : forall n, get_points n None None None = Err ValueError.
Proof. exact get_points_none. Qed.
Print Assumptions C37_no_points.
Example C37_points_case : get_points 2 (Some [q 1; q 1]) None (Some [q 3; q 2]) = Ok ([[q 0; q 0; q 3]; [q 0; q 0; q 2]], [2]).
Proof. vm_compute. reflexivity. Qed.
