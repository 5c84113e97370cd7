(** C44-C46: the MESH and INCON files of a mesh. *)
From Coq Require Import String Ascii Arith ZArith QArith Bool Lia Permutation List.
From Verif Require Import Base.Str Base.Digits Base.Flt Base.FltRound Base.FltArith Model.Py Model.Records Model.Numpy Model.Mesh Model.MeshFile
  Spec.MeshCells Spec.MeshFile Proofs.MeshFileProof.
Import ListNotations.
Local Open Scope nat_scope.

(** Two tetrahedra with a common face, and their description. *)
Definition two_tetra : list (str * list (list nat)) := [($"tetra", [[0; 1; 2; 3]; [1; 2; 3; 4]])].
Definition tenth : flt := flt_of_dec false 1 (-1).
Definition cell_of (label : str) (m : mat) : mcell := MCell label m (flt_of_Z 2) false tenth tenth tenth.
Definition two_cells : list mcell := [cell_of $"AAA00" (MName $"SANDY"); cell_of $"AAA01" (MName $"CLAYS")].
Definition some_measures (l : nat * nat * nat) : measures := Measures 1 tenth tenth (flt_of_Z 2) (flt_of_Z 0).

(** C44.  Each cell has one line in ELEME; each face shared by two cells, and
    nothing else, has one line in CONNE with the labels of these cells. *)
Theorem C44_mesh_file : forall n names ending coord blocks cs conn me, connections 3 blocks = Ok conn -> List.length cs = n_cells blocks ->
  5 <= n <= 9 -> Forall (fun c => List.length (mc_label c) = n) cs -> (forall l, 1 <= me_isot (me l) <= 3)%Z ->
  exists F, surfaces blocks F /\ ((exists p q, interface F p q) ->
  exists order names' ls, Permutation order cs /\ NoDup ls /\
    (forall i f j, In (i, f, j) ls <-> i <= j /\ exists g, interface F (i, f) (j, g)) /\
    write_mesh names ending coord cs conn me = Ok (
      block_text $"ELEME" (map (fun c => eleme_line (mc_label c) (names' c) (file_volume (mc_fixed c) (mc_vol c)) (mc_x c) (mc_y c) (mc_z c)) order) ++
      (if coord then block_text $"COORD" (map (fun c => coord_line (mc_x c) (mc_y c) (mc_z c)) order) else []) ++
      block_text $"CONNE" (map (fun l => conne_line (nth (fst (fst l)) (map mc_label cs) []) (nth (snd l) (map mc_label cs) [])
        (me_isot (me l)) (me_d1 (me l)) (me_d2 (me l)) (me_area (me l)) (me_angle (me l))) ls))).
Proof. exact mesh_file. Qed.
Print Assumptions C44_mesh_file.
Example C44_mesh_file_case : exists conn, connections 3 two_tetra = Ok conn /\ links conn = [(0, 0, 1)] /\
  List.length two_cells = n_cells two_tetra /\ Forall (fun c => List.length (mc_label c) = 5) two_cells.
Proof. eexists. split; [vm_compute; reflexivity|]. split; [vm_compute; reflexivity|]. split; [reflexivity|]. repeat constructor. Qed.
Example C44_mesh_file_text : exists conn text, connections 3 two_tetra = Ok conn /\ write_mesh [] [] false two_cells conn some_measures = Ok text /\
  lines text = map (fun l => l ++ [nl]) [
  $"ELEME----1----*----2----*----3----*----4----*----5----*----6----*----7----*----8";
  $"AAA00          SANDY2.0000e+00                     1.000e-01 1.000e-01 1.000e-01";
  $"AAA01          CLAYS2.0000e+00                     1.000e-01 1.000e-01 1.000e-01";
  [];
  $"CONNE----1----*----2----*----3----*----4----*----5----*----6----*----7----*----8";
  $"AAA00AAA01                   11.0000e-011.0000e-012.0000e+00 0.000e+00          ";
  []].
Proof. do 2 eexists. split; [vm_compute; reflexivity|]. split; vm_compute; reflexivity. Qed.
(** C44 needs an interface: the file of a single cell, or of cells that do not
    touch, is not written. *)
Theorem C44_alone_refuted : ~ (forall names ending coord blocks cs conn me, connections 3 blocks = Ok conn -> List.length cs = n_cells blocks ->
  Forall (fun c => List.length (mc_label c) = 5) cs -> (forall l, 1 <= me_isot (me l) <= 3)%Z ->
  exists text, write_mesh names ending coord cs conn me = Ok text).
Proof.
  intros H. destruct (H [] [] false [($"tetra", [[0; 1; 2; 3]])] [cell_of $"AAA00" (MNum 1)] [[-1; -1; -1; -1; -1; -1]]%Z some_measures) as (t & T).
  - vm_compute. reflexivity.
  - reflexivity.
  - repeat constructor.
  - intros l. cbn. lia.
  - vm_compute in T. discriminate.
Qed.
Print Assumptions C44_alone_refuted.

(** C45.  With names of five characters or more and no blanks around: the cells of
    the materials to move are at the end, and a cell gets another name exactly when
    its material has one. *)
Theorem C45_selection : forall names ending cs, Forall (fun c => forall s, mc_mat c = MName s -> whole_name s) cs -> NoDup (map fst names) ->
  (exists front back, ending_last ending cs = front ++ back /\ Permutation (front ++ back) cs /\
     (forall c, In c front <-> In c cs /\ ~ In (mc_mat c) ending) /\ (forall c, In c back <-> In c cs /\ In (mc_mat c) ending)) /\
  (forall c, In c cs -> (forall v, In (mc_mat c, v) names -> renamed names (padded (mc_mat c)) = v) /\
     (~ In (mc_mat c) (map fst names) -> renamed names (padded (mc_mat c)) = mc_mat c)).
Proof. exact material_selection. Qed.
Print Assumptions C45_selection.
(** C45.  These are the cells and names of the file. *)
Theorem C45_file : forall n names ending coord cs conn me, 5 <= n <= 9 -> Forall (fun c => List.length (mc_label c) = n) cs -> links conn <> [] ->
  (forall i f j, In (i, f, j) (links conn) -> i < List.length cs /\ j < List.length cs /\ (1 <= me_isot (me (i, f, j)) <= 3)%Z) ->
  exists rest, write_mesh names ending coord cs conn me = Ok (
    block_text $"ELEME" (map (fun c => eleme_line (mc_label c) (mat_text (renamed names (padded (mc_mat c)))) (file_volume (mc_fixed c) (mc_vol c)) (mc_x c) (mc_y c) (mc_z c)) (ending_last ending cs)) ++ rest).
Proof. intros. eexists. eapply write_mesh_text; eassumption. Qed.
Print Assumptions C45_file.
Example C45_case : Forall (fun c => forall s, mc_mat c = MName s -> whole_name s) two_cells /\
  map mc_label (ending_last [MName $"SANDY"] two_cells) = [$"AAA01"; $"AAA00"] /\
  renamed [(MName $"SANDY", MName $"DUNES")] (padded (MName $"SANDY")) = MName $"DUNES".
Proof.
  split; [|split; vm_compute; reflexivity]. apply Forall_cons; [|apply Forall_cons; [|constructor]]; intros s X; injection X as <-; (split; [cbn; lia|vm_compute; reflexivity]).
Qed.
(** C45 fails for shorter names: SAND is neither moved nor renamed. *)
Theorem C45_short_refuted : ~ (forall names (cs : list mcell) c v, In c cs -> In (mc_mat c, v) names -> NoDup (map fst names) -> renamed names (padded (mc_mat c)) = v) /\
  ~ (forall ending cs c front back, In c cs -> In (mc_mat c) ending -> ending_last ending cs = front ++ c :: back -> Forall (fun d => In (mc_mat d) ending) back).
Proof.
  split.
  - intros H. specialize (H [(MName $"SAND", MName $"DUNES")] [cell_of $"AAA00" (MName $"SAND")] (cell_of $"AAA00" (MName $"SAND")) (MName $"DUNES") (or_introl eq_refl) (or_introl eq_refl)).
    assert (N : NoDup (map fst [(MName $"SAND", MName $"DUNES")])) by (constructor; [intros []|constructor]). specialize (H N). vm_compute in H. discriminate.
  - intros H. specialize (H [MName $"SAND"] [cell_of $"AAA00" (MName $"SAND"); cell_of $"AAA01" (MName $"CLAYS")] (cell_of $"AAA00" (MName $"SAND")) [] [cell_of $"AAA01" (MName $"CLAYS")] (or_introl eq_refl) (or_introl eq_refl)).
    assert (E : ending_last [MName $"SAND"] [cell_of $"AAA00" (MName $"SAND"); cell_of $"AAA01" (MName $"CLAYS")] = [] ++ cell_of $"AAA00" (MName $"SAND") :: [cell_of $"AAA01" (MName $"CLAYS")]) by (vm_compute; reflexivity).
    specialize (H E). inversion H as [|? ? [X | []]]. discriminate X.
Qed.
Print Assumptions C45_short_refuted.

(** C46.  When each cell with a defined variable has a non-negative one, INCON has
    exactly the cells where something is defined, with the defined values. *)
Theorem C46_incon : forall n cs, 5 <= n <= 9 -> cs <> [] -> Forall (fun c => List.length (ic_label c) = n) cs ->
  Forall (fun c => match ic_userx c with Some u => List.length u = 3 | None => True end) cs ->
  Forall (fun c => Forall (fun v => is_finite v = true) (ic_values c)) cs ->
  Forall (fun c => (exists v, In v (ic_values c) /\ defined v) -> exists v, In v (ic_values c) /\ (0 <= fval v)%Q) cs ->
  exists listed values, (forall c, In c listed <-> In c cs /\ ((exists v, In v (ic_values c) /\ defined v) \/ ic_porosity c <> None \/ ic_userx c <> None)) /\
    (NoDup cs -> NoDup listed) /\
    (forall c, In c listed -> Forall2 defined_or_none (ic_values c) (values c)) /\
    write_incon cs = Ok (block_text $"INCON" (map (fun c => incon_lines (ic_label c) (ic_porosity c) (ic_userx c) (values c)) listed)).
Proof. exact incon_file. Qed.
Print Assumptions C46_incon.
Example C46_incon_case : exists text, write_incon [ICell $"AAA00" [tenth; m1e9] None None; ICell $"AAA01" [m1e9; m1e9] None None; ICell $"AAA02" [m1e9; m1e9] (Some tenth) None] = Ok text /\
  lines text = map (fun l => l ++ [nl]) [
  $"INCON----1----*----2----*----3----*----4----*----5----*----6----*----7----*----8";
  $"AAA00                                                       ";
  $" 1.0000000000000e-01                    ";
  $"AAA02          1.000000000e-01                              ";
  $"                                        ";
  []].
Proof. eexists. split; vm_compute; reflexivity. Qed.
(** C46 fails otherwise: a cell whose only values are negative is left out. *)
Theorem C46_negative_refuted : ~ (forall cs c text, write_incon cs = Ok text -> Forall (fun c => List.length (ic_label c) = 5) cs ->
  In c cs -> (exists v, In v (ic_values c) /\ defined v) -> exists a b, text = a ++ ic_label c ++ b).
Proof.
  intros H. assert (E : write_incon [ICell $"AAA00" [flt_of_Z (-1)] None None] = Ok (block_text $"INCON" [])) by (vm_compute; reflexivity).
  destruct (H _ (ICell $"AAA00" [flt_of_Z (-1)] None None) _ E) as (a & b & X).
  - repeat constructor.
  - now left.
  - exists (flt_of_Z (-1)). split; [now left|]. vm_compute. reflexivity.
  - cbn [ic_label] in X. assert (I : In "A"%char (block_text $"INCON" [])) by (rewrite X; apply in_app_iff; right; now left).
    clear -I. vm_compute in I. repeat (destruct I as [I | I]; [discriminate I|]). destruct I.
Qed.
Print Assumptions C46_negative_refuted.
