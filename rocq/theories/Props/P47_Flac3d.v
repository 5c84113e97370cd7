(** C47, C48, C49: FLAC3D grids. *)
From Coq Require Import String Ascii Arith ZArith QArith Qcanon Bool Lia Permutation List.
From Verif Require Import Base.Str Base.Digits Base.Flt Base.FltArith Model.Py Model.Numpy Model.Mesh Model.F3grid Spec.MeshCells Spec.F3grid Proofs.F3Order Proofs.F3Write Proofs.F3Groups.
Import ListNotations.
Local Open Scope nat_scope.

Definition q (z : Z) : Qc := Q2Qc (inject_Z z).
(** The corners of a box, as in a hexahedron. *)
Definition box : list (list Qc) :=
  [[q 0; q 0; q 0]; [q 1; q 0; q 0]; [q 1; q 1; q 0]; [q 0; q 1; q 0]; [q 0; q 0; q 1]; [q 1; q 0; q 1]; [q 1; q 1; q 1]; [q 0; q 1; q 1]].

(** C47.  Whatever the coordinates and the arithmetic, a solid cell converted to
    FLAC3D and back has its corners in the same order, or the opposite orientation;
    a surface cell keeps the order. *)
Theorem C47_same_or_opposite : forall (C : coords) (points : list (list C)) t t' n c row,
  shaped t Solid t' n -> translate_zone points t' c = Ok row ->
  exists back, read_zone t' row = Ok back /\ List.length row = n /\ (forall i, In i row -> In i c) /\
    (back = firstn n c \/ opposite t' (firstn n c) back).
Proof. exact @shaped_same. Qed.
Print Assumptions C47_same_or_opposite.
Theorem C47_surfaces : forall t t' n c row,
  shaped t Surface t' n -> translate_face t' c = Ok row -> row = firstn n c /\ read_zone t' row = Ok row /\ List.length row = n.
Proof. exact shaped_face. Qed.
Print Assumptions C47_surfaces.
(** Without rounding, unless they are in one plane, the first four nodes of a zone
    are a right-handed frame. *)
Theorem C47_right_handed : forall (points : list (list Qc)) t t' n c row p0 p1 p2 p3,
  shaped t Solid t' n -> @translate_zone rationals points t' c = Ok row ->
  located points (firstn 4 row) [p0; p1; p2; p3] -> volume p0 p1 p2 p3 <> 0%Qc -> (0 < volume p0 p1 p2 p3)%Qc.
Proof. exact shaped_handed. Qed.
Print Assumptions C47_right_handed.
(** Cells which follow VTK's convention come back as they were, the others with the
    opposite orientation. *)
Theorem C47_convention : forall (points : list (list Qc)) t t' n c row back p0 p1 p2 p3 is,
  shaped t Solid t' n -> @translate_zone rationals points t' c = Ok row -> read_zone t' row = Ok back ->
  take c (frame t') = Ok is -> located points is [p0; p1; p2; p3] ->
  ((0 < volume p0 p1 p2 p3)%Qc -> back = firstn n c) /\ ((volume p0 p1 p2 p3 < 0)%Qc -> opposite t' (firstn n c) back).
Proof. exact shaped_kept. Qed.
Print Assumptions C47_convention.

Example C47_shaped : shaped $"hexahedron20" Solid $"hexahedron" 8.
Proof. exists "hexahedron"%string, ["hexahedron"; "hexahedron20"; "hexahedron24"; "hexahedron27"]%string, "hexahedron20"%string. cbn. tauto. Qed.
Example C47_box : @translate_zone rationals box $"hexahedron" [0; 1; 2; 3; 4; 5; 6; 7] = Ok [0; 1; 3; 4; 2; 7; 5; 6]
  /\ read_zone $"hexahedron" [0; 1; 3; 4; 2; 7; 5; 6] = Ok [0; 1; 2; 3; 4; 5; 6; 7]
  /\ volume (q 0, q 0, q 0) (q 1, q 0, q 0) (q 0, q 1, q 0) (q 0, q 0, q 1) = q 1.
Proof. split; [vm_compute; reflexivity|]. split; [vm_compute; reflexivity|]. apply Qc_is_canon. vm_compute. reflexivity. Qed.
(** The same box seen from below is turned over. *)
Example C47_upside_down : @translate_zone rationals box $"hexahedron" [4; 5; 6; 7; 0; 1; 2; 3] = Ok [4; 7; 5; 0; 6; 1; 3; 2]
  /\ read_zone $"hexahedron" [4; 7; 5; 0; 6; 1; 3; 2] = Ok [4; 7; 6; 5; 0; 3; 2; 1].
Proof. split; vm_compute; reflexivity. Qed.
Example C47_face : translate_face $"quad" [3; 1; 4; 0; 9; 9; 9; 9] = Ok [3; 1; 4; 0].
Proof. vm_compute. reflexivity. Qed.

(** Not every zone written is right-handed: one whose first four nodes are in a
    plane is not. *)
Theorem C47_coplanar_refuted : ~ (forall (points : list (list Qc)) t t' n c row p0 p1 p2 p3,
  shaped t Solid t' n -> @translate_zone rationals points t' c = Ok row ->
  located points (firstn 4 row) [p0; p1; p2; p3] -> (0 < volume p0 p1 p2 p3)%Qc).
Proof.
  intros H. specialize (H box $"tetra" $"tetra" 4 [0; 1; 2; 3] [0; 2; 1; 3] (q 0, q 0, q 0) (q 1, q 1, q 0) (q 1, q 0, q 0) (q 0, q 1, q 0)).
  assert (V : volume (q 0, q 0, q 0) (q 1, q 1, q 0) (q 1, q 0, q 0) (q 0, q 1, q 0) = 0%Qc) by (apply Qc_is_canon; vm_compute; reflexivity).
  rewrite V in H. refine (Qclt_not_eq _ _ (H _ _ _) eq_refl).
  - exists "tetra"%string, ["tetra"; "tetra10"]%string, "tetra"%string. cbn. tauto.
  - vm_compute. reflexivity.
  - repeat (apply Forall2_cons; [reflexivity|]). apply Forall2_nil.
Qed.
Print Assumptions C47_coplanar_refuted.
(** A wedge extruded upwards from a triangle run through counterclockwise, as
    extrude_to_3d makes them, is not returned as it was. *)
Theorem C47_wedge_refuted : ~ (forall (points : list (list Qc)) c row back,
  @translate_zone rationals points $"wedge" c = Ok row -> read_zone $"wedge" row = Ok back -> back = c).
Proof.
  intros H. specialize (H box [0; 1; 3; 4; 5; 7] [0; 3; 4; 1; 7; 5] [0; 3; 1; 4; 7; 5]).
  discriminate H; vm_compute; reflexivity.
Qed.
Print Assumptions C47_wedge_refuted.
(** With floats, a tiny right-handed tetrahedron is taken for a left-handed one. *)
Definition corner (k : Z) : list (list flt) :=
  let u j := Fin false (2 ^ 52) (k + j) in
  [[u 0; u 0; u 0]; [u 2; u 1; u 1]; [u 1; u 2; u 1]; [u 1; u 1; u 2]]%Z.
Theorem C47_tiny_refuted : ~ (forall k row back, Forall (Forall (fun x => is_f64 x = true)) (corner k) ->
  @translate_zone doubles (corner k) $"tetra" [0; 1; 2; 3] = Ok row -> read_zone $"tetra" row = Ok back -> back = [0; 1; 2; 3]).
Proof.
  intros H. specialize (H (-452)%Z [0; 2; 1; 3] [0; 2; 1; 3]). discriminate H; [|vm_compute; reflexivity|vm_compute; reflexivity].
  cbn [corner]. repeat (apply Forall_cons; [repeat (apply Forall_cons; [vm_compute; reflexivity|]); apply Forall_nil|]). apply Forall_nil.
Qed.
Print Assumptions C47_tiny_refuted.
Example C47_not_tiny : @translate_zone doubles (corner (-52)) $"tetra" [0; 1; 2; 3] = Ok [0; 1; 2; 3].
Proof. vm_compute. reflexivity. Qed.

(** C48.  A mesh without materials written in either format is read back with the
    same points, and with its solid cells and then its surface cells, each with its
    corners; consecutive cells of one type are in one block. *)
Theorem C48_round_trip : forall (binary : bool) version now m file,
  write binary version now m = Ok file -> g_material m = None ->
  Forall in_space (g_points m) -> valid (List.length (g_points m)) (flat (g_cells m)) ->
  (binary = false -> without_newline version /\ without_newline now) ->
  exists c zs fs, read file = Ok c /\ c_points c = g_points m /\ sorted_out (flat (g_cells m)) zs fs /\
    Forall2 comes_back (zs ++ fs) (flat (c_cells c)) /\ merged (c_cells c) /\ c_groups c = None /\ c_field c = [].
Proof. exact round_trip. Qed.
Print Assumptions C48_round_trip.

(** A tetrahedron with two of its sides, and its points. *)
Definition corners : list (list flt) := corner (-52).
Definition sides : cellblock := ($"triangle", [[0; 1; 2]; [1; 2; 3]]).
Definition solids : cellblock := ($"tetra", [[0; 1; 2; 3]]).
Definition bare : grid := Grid corners [sides; ($"line", [[0; 1]]); solids] None [].
Definition reread (binary : bool) (m : grid) : res contents := let* s := write binary $"1.0" $"today" m in read s.
Example C48_bare : Forall in_space (g_points bare) /\ valid (List.length (g_points bare)) (flat (g_cells bare)).
Proof.
  split.
  - unfold bare, corners, corner. cbn [g_points]. repeat (apply Forall_cons; [split; [reflexivity|]; repeat (apply Forall_cons; [vm_compute; reflexivity|]); apply Forall_nil|]). apply Forall_nil.
  - unfold bare, corners, corner, valid. cbn. repeat (apply Forall_cons; [cbn; repeat (apply Forall_cons; [lia|]); apply Forall_nil|]). apply Forall_nil.
Qed.
Example C48_binary : reread true bare = Ok (Contents corners [solids; sides] None []).
Proof. vm_compute. reflexivity. Qed.
Example C48_text : reread false bare = Ok (Contents corners [solids; sides] None []).
Proof. vm_compute. reflexivity. Qed.

(** C49.  When the solid cells come first and then the surface cells, and no two
    groups have one name, the mesh read back has for each cell the number of a group
    with the name of its material, and the dimension of the cell; for the text
    format names without blanks and quotes and at most one group of surfaces. *)
Theorem C49_groups : forall (binary : bool) version now m file mats zs fs,
  write binary version now m = Ok file -> g_material m = Some mats ->
  Forall in_space (g_points m) -> valid (List.length (g_points m)) (flat (g_cells m)) ->
  flat (g_cells m) = zs ++ fs -> Forall is_solid zs -> Forall is_surface fs -> zs ++ fs <> [] -> unambiguous (g_field m) zs fs mats ->
  (binary = false -> without_newline version /\ without_newline now /\ plain_names (g_field m) zs fs mats /\
     forall m m', used zs fs mats m 2%Z -> used zs fs mats m' 2%Z -> m = m') ->
  exists c gs, read file = Ok c /\ c_points c = g_points m /\ Forall2 comes_back (zs ++ fs) (flat (c_cells c)) /\ merged (c_cells c) /\
    c_groups c = Some gs /\ map (@List.length nat) gs = map (fun b => List.length (snd b)) (c_cells c) /\
    NoDup (map fst (c_field c)) /\ NoDup (map (fun e => fst (snd e)) (c_field c)) /\
    Forall2 (fun md g => exists name, named (g_field m) (fst md) (snd md) name /\ In (name, (g, snd md)) (c_field c)) (combine mats (dimensions zs fs)) (concat gs).
Proof. exact groups_read. Qed.
Print Assumptions C49_groups.

Definition marked (blocks : list cellblock) (mats : list Z) (fd : field) : grid := Grid corners blocks (Some mats) fd.
Definition rocks : field := [($"ROCK", (7, 3)); ($"TOP", (5, 2))]%Z.
Example C49_case : let m := marked [solids; sides] [7; 5; 0]%Z rocks in
  flat (g_cells m) = flat [solids] ++ flat [sides] /\ Forall is_solid (flat [solids]) /\ Forall is_surface (flat [sides]) /\
  unambiguous rocks (flat [solids]) (flat [sides]) [7; 5; 0]%Z.
Proof.
  cbv zeta. split; [reflexivity|]. split; [|split].
  - repeat constructor. exists $"tetra", 4. exists "tetra"%string, ["tetra"; "tetra10"]%string, "tetra"%string. cbn. tauto.
  - assert (H : forall r, is_surface ($"triangle", r)) by (intros r; exists $"triangle", 3, "triangle"%string, ["triangle"; "triangle6"; "triangle7"]%string, "triangle"%string; cbn; tauto).
    constructor; [apply H|]. constructor; [apply H|constructor].
  - assert (N : forall m d name, named rocks m d name -> (name = $"ROCK" /\ m = 7 /\ d = 3 \/ name = $"TOP" /\ m = 5 /\ d = 2 \/
      name = (if Z.eqb m 0 then $"None" else print_Z m) /\ (m, d) <> (7, 3) /\ (m, d) <> (5, 2))%Z).
    { intros m d name [I|[F E]].
      - cbn in I. destruct I as [I|[I|[]]]; injection I as <- <- <-; auto.
      - right. right. split; auto. split; intros X; injection X as -> ->; [apply (F $"ROCK")|apply (F $"TOP")]; cbn; tauto. }
    intros m d m' d' name U U' H H'. cbn in U, U'.
    destruct U as [U|[U|[U|[]]]], U' as [U'|[U'|[U'|[]]]]; injection U as <- <-; injection U' as <- <-; auto; exfalso;
      apply N in H; apply N in H'; cbn in H, H';
      destruct H as [(? & ? & ?)|[(? & ? & ?)|(? & ? & ?)]], H' as [(? & ? & ?)|[(? & ? & ?)|(? & ? & ?)]]; subst; try congruence.
Qed.
Example C49_binary : reread true (marked [solids; sides] [7; 5; 0]%Z rocks) =
  Ok (Contents corners [solids; sides] (Some [[1]; [3; 2]]) [($"ROCK", (1, 3%Z)); ($"None", (2, 2%Z)); ($"TOP", (3, 2%Z))]).
Proof. vm_compute. reflexivity. Qed.
Example C49_text : reread false (marked [solids; sides] [7; 5; 5]%Z rocks) =
  Ok (Contents corners [solids; sides] (Some [[1]; [2; 2]]) [($"ROCK", (1, 3%Z)); ($"TOP", (2, 2%Z))]).
Proof. vm_compute. reflexivity. Qed.

(** The conditions are needed.  With surface cells before the solid ones, the file
    cannot be read back; nor with cells which are neither. *)
Theorem C49_order_refuted : ~ (forall m file, write true $"1.0" $"today" m = Ok file ->
  (forall b, In b (g_cells m) -> fst b = $"tetra" \/ fst b = $"triangle") -> exists c, read file = Ok c).
Proof.
  intros H. destruct (write true $"1.0" $"today" (marked [sides; solids] [5; 5; 7]%Z rocks)) as [file|] eqn:E.
  - assert (R : read file = Err KeyError) by (assert (X : (let* s := write true $"1.0" $"today" (marked [sides; solids] [5; 5; 7]%Z rocks) in read s) = Err KeyError) by (vm_compute; reflexivity); now rewrite E in X).
    destruct (H _ _ E) as [c C]; [|congruence]. intros b [<-|[<-|[]]]; auto.
  - assert (X : match write true $"1.0" $"today" (marked [sides; solids] [5; 5; 7]%Z rocks) with Ok _ => true | Err _ => false end = true) by (vm_compute; reflexivity).
    rewrite E in X. discriminate X.
Qed.
Print Assumptions C49_order_refuted.
Example C49_lines : reread true (marked [solids; ($"line", [[0; 1]])] [7; 9]%Z rocks) = Err KeyError.
Proof. vm_compute. reflexivity. Qed.
(** Two groups of surfaces in text. *)
Theorem C49_two_faces_refuted : ~ (forall m mats, m = marked [solids; sides] mats rocks -> (exists f, write false $"1.0" $"today" m = Ok f) -> exists c, reread false m = Ok c).
Proof.
  intros H. destruct (H _ [7; 5; 0]%Z eq_refl) as [c C].
  - eexists. vm_compute. reflexivity.
  - assert (X : reread false (marked [solids; sides] [7; 5; 0]%Z rocks) = Err ValueError) by (vm_compute; reflexivity). congruence.
Qed.
Print Assumptions C49_two_faces_refuted.
(** A name with a blank is cut in text. *)
Theorem C49_blank_refuted : ~ (forall name m c, m = marked [solids] [7]%Z [(name, (7, 3)%Z)] -> reread false m = Ok c -> In name (map fst (c_field c))).
Proof.
  intros H. specialize (H $"CAP ROCK" _ (Contents corners [solids] (Some [[1]]) [($"CAP", (1, 3%Z))]) eq_refl).
  assert (X : In $"CAP ROCK" [$"CAP"]) by (apply H; vm_compute; reflexivity). destruct X as [X|[]]. discriminate X.
Qed.
Print Assumptions C49_blank_refuted.
(** One name for a solid and a surface material: the number of one of them is lost. *)
Theorem C49_same_name_refuted : ~ (forall m mats c gs, m = marked [solids; sides] mats [] -> reread true m = Ok c -> c_groups c = Some gs ->
  forall g, In g (concat gs) -> In g (map (fun e => fst (snd e)) (c_field c))).
Proof.
  intros H. specialize (H _ [4; 4; 4]%Z (Contents corners [solids; sides] (Some [[1]; [2; 2]]) [($"4", (2, 2%Z))]) [[1]; [2; 2]] eq_refl).
  assert (X : In 1 [2]) by (apply H; [vm_compute; reflexivity|reflexivity|now left]). destruct X as [X|[]]. discriminate X.
Qed.
Print Assumptions C49_same_name_refuted.
