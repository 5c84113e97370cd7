(** C82: Tecplot mesh files written by other programs are read as they stand. *)
From Coq Require Import String Ascii Arith ZArith Bool List.
From Verif Require Import Base.Str Base.Digits Base.Flt Model.Py Model.Avsucd Model.TecMesh Spec.Avsucd Spec.TecMesh Spec.TecFile Proofs.OutputSamples Proofs.TecFileProof Proofs.TecFileRead.
Import ListNotations.
Local Open Scope nat_scope.

(** The variables are in any order, with any spacing; the zone is on one or several lines;
    the data are one row per point or one variable after another, at the points or at the
    cells. Each point has the numbers of its coordinates, each cell its nodes, each other
    variable its numbers. *)
Theorem C82_mesh : forall file names z cols cells t kx ky kzs w,
  tec_file names z cols cells (lines file) -> NoDup names -> zone_kind (z_name z) t ->
  let data := combine names cols in
  axis_name (map fst (at_points z data)) "X" "x" kx -> axis_name (map fst (at_points z data)) "Y" "y" ky ->
  (exists kz, kzs = [kz] /\ axis_name (map fst (at_points z data)) "Z" "z" kz) \/ kzs = [] /\ ~ In $"Z" (map fst (at_points z data)) /\ ~ In $"z" (map fst (at_points z data)) ->
  cells <> [] -> Forall (fun c => List.length c = w) cells ->
  exists m, read_mesh file = Ok m /\ u_cells m = [(t, cells)] /\ List.length (u_points m) = z_points z /\
    (forall i p, nth_error (u_points m) i = Some p -> Forall2 (fun k x => exists c, In (k, c) data /\ nth_error c i = Some x) (kx :: ky :: kzs) p) /\
    u_point_data m = map floats (filter (fun e => negb (existsb (streqb (fst e)) (kx :: ky :: kzs))) (at_points z data)) /\
    (forall l, renamed (map floats (at_cells z data)) l -> u_cell_data m = l).
Proof. exact file_read. Qed.
Print Assumptions C82_mesh.

(** A file of lines. *)
Definition C82_line (s : string) : str := $s ++ [nl].
Definition C82_file (ls : list string) : str := concat (map C82_line ls).
Definition C82_ints (l : list Z) : list flt := map (fun n => real n 0) l.
Ltac C82_not := let I := fresh in intros I; vm_compute in I; intuition discriminate.
Ltac C82_all := repeat first [apply Forall_nil | apply Forall_cons | apply Forall2_nil | apply Forall2_cons].

Ltac C82_right := match goal with |- Forall2 _ _ ?x => let y := eval vm_compute in x in change x with y end.
Ltac C82_left := match goal with |- Forall2 _ ?x _ => let y := eval vm_compute in x in change x with y end.
Ltac C82_lines := repeat (apply Forall2_cons; [unfold number_line, cell_line; C82_left; C82_all; vm_compute; reflexivity|]); apply Forall2_nil.

(** One row per point, names in lower case and in another order, the zone on two lines,
    blank lines, a line after the cells. *)
Definition C82_rows : list string :=
  ["TITLE = ""a grid"""; "variables = y,x , ""Temp"" "; "ZONE T=""first zone"" N = 4, E=1,"; "  f=FEPOINT   ET = quadrilateral";
   "0.0 1.0 10.0"; " "; "0. 2 20"; "1.0 2.0 30.0"; "1 1 4e1"; ""; "1  2 3 4"; "anything"]%string.
Definition C82_rows_columns : list (list flt) := [C82_ints [0; 0; 1; 1]; C82_ints [1; 2; 2; 1]; C82_ints [10; 20; 30; 40]]%Z.
Definition C82_rows_zone : zone := Zone 4 1 false $"QUADRILATERAL" [false; false; false].
Example C82_rows_file : tec_file [$"y"; $"x"; $"Temp"] C82_rows_zone C82_rows_columns [[0; 1; 2; 3]] (lines (C82_file C82_rows)).
Proof.
  exists [C82_line "TITLE = ""a grid"""], (C82_line "variables = y,x , ""Temp"" "), [], (C82_line "ZONE T=""first zone"" N = 4, E=1,"), [C82_line "  f=FEPOINT   ET = quadrilateral"],
    (map C82_line ["0.0 1.0 10.0"; " "; "0. 2 20"; "1.0 2.0 30.0"; "1 1 4e1"]%string), (map C82_line [""; "1  2 3 4"]%string), (map C82_line ["anything"]%string),
    [C82_ints [0; 1; 10]; C82_ints [0; 2; 20]; C82_ints [1; 2; 30]; C82_ints [1; 1; 40]]%Z.
  split; [vm_compute; reflexivity|]. split; [C82_all; split; [vm_compute; discriminate|split; vm_compute; reflexivity]|].
  split. { split; [vm_compute; reflexivity|]. do 3 eexists. split; [vm_compute; reflexivity|]. C82_right. C82_all; (split; [C82_not|]); [left; reflexivity|left; reflexivity|right; reflexivity]. }
  split; [apply Forall_nil|]. split.
  { split; [vm_compute; reflexivity|]. split; [C82_all; do 2 eexists; split; vm_compute; reflexivity|].
    exists $"T=PLACEHOLDER N = 4, E=1, F=FEPOINT   ET = QUADRILATERAL", None, $"T=PLACEHOLDER N = 4, E=1, F=FEPOINT   ET = QUADRILATERAL", [($"T", $"PLACEHOLDER"); ($"N", $"4"); ($"E", $"1"); ($"F", $"FEPOINT"); ($"ET", $"QUADRILATERAL")].
    split. { right. exists $"T=", $"first zone", $" N = 4, E=1, F=FEPOINT   ET = QUADRILATERAL". split; [vm_compute; reflexivity|]. split; [C82_not|vm_compute; reflexivity]. }
    split. { split; [|reflexivity]. apply find_sub_none_absent. vm_compute. reflexivity. }
    split.
    { exists [[$"T=PLACEHOLDER"]; [$"N"; $"="; $"4"]; [$"E=1"]; [$"F=FEPOINT"]; [$"ET"; $"="; $"QUADRILATERAL"]]. split; [vm_compute; reflexivity|].
      split; [apply Forall2_cons; [exact (pw_joined $"T" _)|]; apply Forall2_cons; [exact (pw_apart _ _)|]; apply Forall2_cons; [exact (pw_joined $"E" _)|]; apply Forall2_cons; [exact (pw_joined $"F" _)|]; apply Forall2_cons; [exact (pw_apart _ _)|]; apply Forall2_nil|].
      split. { C82_all; (split; [discriminate|]; split; [C82_not|]).
        - exists "T"%string. split; [reflexivity|]. right. cbn; tauto.
        - exists "N"%string. split; [reflexivity|]. left. split; [cbn; tauto|]. exists 4%Z. vm_compute. reflexivity.
        - exists "E"%string. split; [reflexivity|]. left. split; [cbn; tauto|]. exists 1%Z. vm_compute. reflexivity.
        - exists "F"%string. split; [reflexivity|]. right. cbn; tauto.
        - exists "ET"%string. split; [reflexivity|]. right. cbn; tauto. }
      split; [apply nodupb_ok; vm_compute; reflexivity|]. intros front g E. apply (f_equal (fun l => last l [])) in E. rewrite last_last in E. rewrite <- E. vm_compute. repeat constructor. }
    split; [left; split; cbn; tauto|]. split; [exists $"4"; split; [vm_compute; reflexivity|cbn; tauto]|]. split; [exists $"1"; split; [vm_compute; reflexivity|cbn; tauto]|]. reflexivity. }
  split; [do 2 eexists; split; vm_compute; reflexivity|].
  split. { C82_right. C82_lines. }
  split. { split; [reflexivity|]. split; [C82_all; reflexivity|]. intros [|[|[|j]]] c J; cbn in J; try (injection J as <-; C82_all; reflexivity). destruct j; discriminate J. }
  split; [reflexivity|]. split; [|reflexivity]. C82_right. C82_lines.
Qed.
Example C82_rows_case : exists m, read_mesh (C82_file C82_rows) = Ok m /\ u_cells m = [($"quad", [[0; 1; 2; 3]])] /\ List.length (u_points m) = 4 /\
  (forall i p, nth_error (u_points m) i = Some p -> Forall2 (fun k x => exists c, In (k, c) (combine [$"y"; $"x"; $"Temp"] C82_rows_columns) /\ nth_error c i = Some x) [$"x"; $"y"] p) /\
  u_point_data m = [($"Temp", Floats (C82_ints [10; 20; 30; 40]%Z))] /\ u_cell_data m = [].
Proof.
  destruct (C82_mesh (C82_file C82_rows) [$"y"; $"x"; $"Temp"] C82_rows_zone C82_rows_columns [[0; 1; 2; 3]] $"quad" $"x" $"y" [] 4 C82_rows_file) as (m & R & C & L & P & D & E).
  - apply nodupb_ok. vm_compute. reflexivity.
  - exists "QUADRILATERAL"%string, "FEQUADRILATERAL"%string, "quad"%string. split; [cbn; tauto|]. split; [left; reflexivity|reflexivity].
  - split; [cbn; tauto|]. right. split; [reflexivity|C82_not].
  - split; [cbn; tauto|]. right. split; [reflexivity|C82_not].
  - right. split; [reflexivity|]. split; C82_not.
  - discriminate.
  - C82_all. reflexivity.
  - exists m. split; [exact R|]. split; [exact C|]. split; [exact L|]. split; [exact P|]. split; [exact D|]. apply E. apply rn_none. intros e [].
Qed.

(** One variable after another, some at the cells, the lines of data cut anywhere. *)
Ltac C82_keys := C82_all; (split; [discriminate|]; split; [C82_not|]);
  match goal with |- exists k, fst (lit ?s, _) = _ /\ _ => exists s; split; [reflexivity|]; first [right; cbn; tauto | left; split; [cbn; tauto|]; eexists; vm_compute; reflexivity] end.
Ltac C82_last := let front := fresh in let g := fresh in let E := fresh in intros front g E; apply (f_equal (fun l => last l [])) in E; rewrite last_last in E; rewrite <- E; vm_compute; repeat constructor.
Definition C82_blocks : list string :=
  ["VARIABLES = ""X"" ""Y"" ""P"" ""Z"" ""MAT"" "; "ZONE NODES=4, ELEMENTS=2, VARLOCATION=([3]=NODAL, [5]=CELLCENTERED, [3]=CELLCENTERED),"; "DATAPACKING=BLOCK ZONETYPE =FETETRAHEDRON";
   "0 1 0 0 0 0"; "1 0 50"; "60"; "0 0 0 1 1 2 "; "1 2 3 4"; "4 3 2 1"]%string.
Definition C82_blocks_names : list str := [$"X"; $"Y"; $"P"; $"Z"; $"MAT"].
Definition C82_blocks_columns : list (list flt) := [C82_ints [0; 1; 0; 0]; C82_ints [0; 0; 1; 0]; C82_ints [50; 60]; C82_ints [0; 0; 0; 1]; C82_ints [1; 2]]%Z.
Definition C82_blocks_zone : zone := Zone 4 2 true $"FETETRAHEDRON" [false; false; true; false; true].
Example C82_blocks_file : tec_file C82_blocks_names C82_blocks_zone C82_blocks_columns [[0; 1; 2; 3]; [3; 2; 1; 0]] (lines (C82_file C82_blocks)).
Proof.
  exists [], (C82_line "VARIABLES = ""X"" ""Y"" ""P"" ""Z"" ""MAT"" "), [], (C82_line "ZONE NODES=4, ELEMENTS=2, VARLOCATION=([3]=NODAL, [5]=CELLCENTERED, [3]=CELLCENTERED),"), [C82_line "DATAPACKING=BLOCK ZONETYPE =FETETRAHEDRON"],
    (map C82_line ["0 1 0 0 0 0"; "1 0 50"; "60"; "0 0 0 1 1 2 "]%string), (map C82_line ["1 2 3 4"; "4 3 2 1"]%string), [],
    [C82_ints [0; 1; 0; 0; 0; 0]; C82_ints [1; 0; 50]; C82_ints [60]; C82_ints [0; 0; 0; 1; 1; 2]]%Z.
  split; [vm_compute; reflexivity|]. split; [apply Forall_nil|].
  split. { split; [vm_compute; reflexivity|]. do 3 eexists. split; [vm_compute; reflexivity|]. C82_right. C82_all; (split; [C82_not|]; right; reflexivity). }
  split; [apply Forall_nil|]. split.
  { split; [vm_compute; reflexivity|]. split; [C82_all; do 2 eexists; split; vm_compute; reflexivity|].
    exists $"NODES=4, ELEMENTS=2, VARLOCATION=([3]=NODAL, [5]=CELLCENTERED, [3]=CELLCENTERED), DATAPACKING=BLOCK ZONETYPE =FETETRAHEDRON", (Some $"[3]=NODAL, [5]=CELLCENTERED, [3]=CELLCENTERED"),
      $"NODES=4, ELEMENTS=2, , DATAPACKING=BLOCK ZONETYPE =FETETRAHEDRON", [($"NODES", $"4"); ($"ELEMENTS", $"2"); ($"DATAPACKING", $"BLOCK"); ($"ZONETYPE", $"FETETRAHEDRON")].
    split. { left. split; [C82_not|vm_compute; reflexivity]. }
    split. { exists $"NODES=4, ELEMENTS=2, ", $"=", $", DATAPACKING=BLOCK ZONETYPE =FETETRAHEDRON". split; [reflexivity|]. split; [apply find_sub_none_absent; vm_compute; reflexivity|]. split; [|reflexivity].
      intros c I. vm_compute in I. repeat (destruct I as [<- | I]; [split; discriminate|]). destruct I. }
    split.
    { exists [[$"NODES=4"]; [$"ELEMENTS=2"]; [$"DATAPACKING=BLOCK"]; [$"ZONETYPE"; $"=FETETRAHEDRON"]]. split; [vm_compute; reflexivity|].
      split; [apply Forall2_cons; [exact (pw_joined $"NODES" _)|]; apply Forall2_cons; [exact (pw_joined $"ELEMENTS" _)|]; apply Forall2_cons; [exact (pw_joined $"DATAPACKING" _)|]; apply Forall2_cons; [exact (pw_right _ $"FETETRAHEDRON")|]; apply Forall2_nil|].
      split; [C82_keys|]. split; [apply nodupb_ok; vm_compute; reflexivity|]. C82_last. }
    split; [right; split; [C82_not|]; split; cbn; tauto|]. split; [exists $"4"; split; [vm_compute; reflexivity|right; split; [C82_not|cbn; tauto]]|]. split; [exists $"2"; split; [vm_compute; reflexivity|right; split; [C82_not|cbn; tauto]]|].
    right. split; [C82_not|]. exists [Range 3 3 false; Range 5 5 true; Range 3 3 true]. split; [discriminate|]. split; [vm_compute; reflexivity|]. split; [C82_all; cbn; repeat split; repeat constructor|]. vm_compute. reflexivity. }
  split; [do 2 eexists; split; vm_compute; reflexivity|]. split; [C82_right; C82_lines|]. split; [split; [reflexivity|C82_all; reflexivity]|]. split; [reflexivity|]. split; [|reflexivity]. C82_right. C82_lines.
Qed.
Example C82_blocks_case : exists m, read_mesh (C82_file C82_blocks) = Ok m /\ u_cells m = [($"tetra", [[0; 1; 2; 3]; [3; 2; 1; 0]])] /\ List.length (u_points m) = 4 /\
  (forall i p, nth_error (u_points m) i = Some p -> Forall2 (fun k x => exists c, In (k, c) (combine C82_blocks_names C82_blocks_columns) /\ nth_error c i = Some x) [$"X"; $"Y"; $"Z"] p) /\
  u_point_data m = [] /\ u_cell_data m = [($"P", Floats (C82_ints [50; 60]%Z)); ($"MAT", Floats (C82_ints [1; 2]%Z))].
Proof.
  destruct (C82_mesh (C82_file C82_blocks) C82_blocks_names C82_blocks_zone C82_blocks_columns [[0; 1; 2; 3]; [3; 2; 1; 0]] $"tetra" $"X" $"Y" [$"Z"] 4 C82_blocks_file) as (m & R & C & L & P & D & E).
  - apply nodupb_ok. vm_compute. reflexivity.
  - exists "TETRAHEDRON"%string, "FETETRAHEDRON"%string, "tetra"%string. split; [cbn; tauto|]. split; [right; reflexivity|reflexivity].
  - split; [cbn; tauto|]. left. reflexivity.
  - split; [cbn; tauto|]. left. reflexivity.
  - left. exists $"Z". split; [reflexivity|]. split; [cbn; tauto|]. left. reflexivity.
  - discriminate.
  - C82_all; reflexivity.
  - exists m. split; [exact R|]. split; [exact C|]. split; [exact L|]. split; [exact P|]. split; [exact D|]. apply E. apply rn_none. intros e I (s & J & X). vm_compute in I. cbn in J. intuition (subst; discriminate).
Qed.
(** The number of variables at the points. *)
Example C82_nv_case : option_map (fun m => (u_cells m, map fst (u_point_data m), map fst (u_cell_data m)))
    (match read_mesh (C82_file ["VARIABLES = X Y T R"; "ZONE N=3 E=1 NV=3 F=FEBLOCK ET = TRIANGLE"; "0 1 0 0 0 1"; "10 20 30 5"; "1 2 3"]%string) with Ok m => Some m | _ => None end) =
  Some ([($"triangle", [[0; 1; 2]])], [$"T"], [$"R"]).
Proof. vm_compute. reflexivity. Qed.

(** C82 fails when the last value is joined to its key: it is left out. *)
Definition C82_last_file (zone : string) : str := C82_file ["VARIABLES = X Y"; zone; "0 0"; "1 0"; "0 1"; "1 2 3"]%string.
Theorem C82_last_refuted : read_mesh (C82_last_file "ZONE N=3, E=1, F=FEPOINT, ET=TRIANGLE") = Err ValueError /\ exists m, read_mesh (C82_last_file "ZONE N=3, E=1, F=FEPOINT, ET= TRIANGLE") = Ok m.
Proof. split; [vm_compute; reflexivity|]. eexists. vm_compute. reflexivity. Qed.
Print Assumptions C82_last_refuted.
(** C82 fails for quoted names of three words: without error, the columns get names which
    are made of pieces of different names. *)
Theorem C82_names_refuted : exists m, read_mesh (C82_file ["VARIABLES = ""X"" ""Y"" ""Gas phase saturation"" ""P"""; "ZONE N=3, E=1, F=FEPOINT, ET = TRIANGLE"; "0 0 0 5"; "1 0 0 5"; "0 1 1 5"; "1 2 3"]%string) = Ok m /\
  u_point_data m = [($"Gas_phase", Floats (C82_ints [0; 0; 1]%Z)); ($"saturation_P", Floats (C82_ints [5; 5; 5]%Z))].
Proof. eexists. split; [vm_compute; reflexivity|]. vm_compute. reflexivity. Qed.
Print Assumptions C82_names_refuted.
