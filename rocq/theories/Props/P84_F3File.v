(** C84: FLAC3D grids of other programs. *)
From Coq Require Import String Ascii Arith ZArith Bool Permutation Lia List.
From Verif Require Import Base.Str Base.Digits Base.Flt Base.FltInt Model.Py Model.F3grid Spec.MeshCells Spec.F3grid Proofs.OutputSamples Proofs.F3FileRead Proofs.F3FileBinary Spec.F3File.
Import ListNotations.
Local Open Scope nat_scope.

(** C84.  A text file with any remarks, with gridpoints, zones and faces numbered in any
    way, with zones, faces and groups in any order as long as nothing is named before it
    is given, is read as the grid it describes: the points in the order of the file, each
    zone or face with the nodes its numbers name, in the order of a mesh, the groups with
    their numbers and dimensions, and the number of the group of each zone or face. *)
Theorem C84_text : forall l file, text_grid l file -> distinct l -> grouped Solid l -> grouped Surface l -> (groups_in l <> [] -> cells_in l <> []) ->
  exists m, read file = Ok m /\ c_points m = map snd (points_in l) /\ flat (c_cells m) = map (fun c => (c_type c, c_nodes c)) (cells_in l) /\ merged (c_cells m) /\ c_field m = fields_of l /\
    (groups_in l = [] -> c_groups m = None) /\
    (groups_in l <> [] -> exists gs, c_groups m = Some gs /\ map (@List.length nat) gs = map (fun b => List.length (snd b)) (c_cells m) /\
      forall i c, nth_error (cells_in l) i = Some c -> exists n, nth_error (concat gs) i = Some n /\ number_of_group l i c n).
Proof. exact text_grid_read. Qed.
Print Assumptions C84_text.

(** The same of a binary file. *)
Theorem C84_binary : forall l file, binary_grid l file -> distinct l -> grouped Solid l -> grouped Surface l -> (groups_in l <> [] -> cells_in l <> []) ->
  exists m, read file = Ok m /\ c_points m = map snd (points_in l) /\ flat (c_cells m) = map (fun c => (c_type c, c_nodes c)) (cells_in l) /\ merged (c_cells m) /\ c_field m = fields_of l /\
    (groups_in l = [] -> c_groups m = None) /\
    (groups_in l <> [] -> exists gs, c_groups m = Some gs /\ map (@List.length nat) gs = map (fun b => List.length (snd b)) (c_cells m) /\
      forall i c, nth_error (cells_in l) i = Some c -> exists n, nth_error (concat gs) i = Some n /\ number_of_group l i c n).
Proof. exact binary_grid_read. Qed.
Print Assumptions C84_binary.

(** A hexahedron with two nodes which are one, a tetrahedron and a face. *)
Definition x0 : flt := Fin false 0 (-1074).
Definition x1 : flt := Fin false (2 ^ 52 + 0) (1023 - 1075).
Definition some_points : list gridpoint :=
  [(10%Z, [x0; x0; x0]); (3%Z, [x1; x0; x0]); (7%Z, [x1; x1; x0]); (1%Z, [x0; x1; x0]); (5%Z, [x0; x0; x1]); (8%Z, [x1; x0; x1]); (4%Z, [x0; x1; x1])].
Definition some_tetra := Cell Solid 5 $"tetra" [0; 1; 2; 4].
Definition some_hexa := Cell Solid 2 $"hexahedron" [0; 1; 2; 3; 4; 5; 5; 6].
Definition some_face := Cell Surface 5 $"triangle" [0; 1; 2].
Definition rock := Group Solid $"rock" $"1" [1].
Definition sand := Group Solid $"sand" $"1" [0].
Definition top := Group Surface $"top" [] [2].
Definition text_items : list grid_item :=
  Remark :: map Gridpoint some_points ++ [Element some_tetra; Element some_hexa; Members rock; Members sand; Remark; Element some_face; Members top].
Definition text_lines : list str :=
  [$"* by another program"; $"G 10 0 0 0"; $"G 3 1.0 0 0"; $" G  7 1 1 0"; $"G 1 0 1 0"; $"G 5 0 0 1"; $"G 8 1 0 1"; $"G 4 0 1 1";
   $"Z T4 5 10 3 7 5"; $"Z B7 2 10 3 1 5 7 4 8"; $"ZGROUP ""rock"" SLOT 1"; $"2"; $"ZGROUP sand SLOT 1"; $" 5"; $"* FACES"; $"F T3 5 10 3 7"; $"FGROUP ""top"""; $"5"].
Definition text_of (ls : list str) : str := concat (map (fun l => l ++ [nl]) ls).
Ltac floats := repeat (apply Forall2_cons; [vm_compute; reflexivity|]); apply Forall2_nil.
Ltac one_point := eapply d_point; [vm_compute; reflexivity|vm_compute; reflexivity|unfold reads; floats|].
Ltac one_cell := eapply d_cell; [vm_compute; reflexivity|vm_compute; reflexivity|cbn [c_body c_type c_nodes]; constructor
  |repeat (apply Forall2_cons; [eexists; split; [reflexivity|vm_compute; reflexivity]|]); apply Forall2_nil|].
Ltac distinct_words := repeat (apply NoDup_cons; [cbn [In]; intros I; repeat (destruct I as [I|I]; [discriminate I|]); exact I|]); apply NoDup_nil.
Lemma same_slot l : forallb (fun g => forallb (fun g' => negb (same_body (g_body g) (g_body g')) || streqb (g_slot g) (g_slot g')) l) l = true ->
  forall g g', In g l -> In g' l -> g_body g = g_body g' -> g_slot g = g_slot g'.
Proof.
  intros H g g' I I' E. rewrite forallb_forall in H. specialize (H g I). rewrite forallb_forall in H. specialize (H g' I'). rewrite E in H.
  apply streqb_eq. destruct (g_body g'); exact H.
Qed.
Example C84_case_text : text_grid text_items (text_of text_lines) /\ distinct text_items /\ grouped Solid text_items /\ grouped Surface text_items.
Proof.
  split; [|split; [|split]].
  - split; [vm_compute; intros I; repeat (destruct I as [I|I]; [discriminate I|]); exact I|].
    replace (lines (text_of text_lines)) with (map (fun l => l ++ [nl]) text_lines) by (vm_compute; reflexivity).
    unfold text_items, text_lines, some_points. cbn [map app].
    eapply d_remark; [vm_compute; reflexivity|cbn [In keywords]; intros I; repeat (destruct I as [I|I]; [discriminate I|]); exact I|].
    do 7 one_point. cbn [app]. do 2 one_cell. cbn [app].
    apply (d_group _ _ _ _ [$"2" ++ [nl]] _ rock $"""rock""" [$"SLOT"; $"1"] [[2%Z]]); [vm_compute; reflexivity|vm_compute; reflexivity| | | | |].
    { right. split; [right; left; reflexivity|]. exists [$"""rock"""; $"SLOT"]. reflexivity. }
    { apply Forall2_cons; [split; [vm_compute; discriminate|floats]|apply Forall2_nil]. }
    { apply Forall2_cons; [exists some_hexa; repeat split|apply Forall2_nil]. }
    { vm_compute. right. reflexivity. }
    apply (d_group _ _ _ _ [$" 5" ++ [nl]] _ sand $"sand" [$"SLOT"; $"1"] [[5%Z]]); [vm_compute; reflexivity|vm_compute; reflexivity| | | | |].
    { right. split; [right; left; reflexivity|]. exists [$"sand"; $"SLOT"]. reflexivity. }
    { apply Forall2_cons; [split; [vm_compute; discriminate|floats]|apply Forall2_nil]. }
    { apply Forall2_cons; [exists some_tetra; repeat split|apply Forall2_nil]. }
    { vm_compute. left. reflexivity. }
    eapply d_remark; [vm_compute; reflexivity|cbn [In keywords]; intros I; repeat (destruct I as [I|I]; [discriminate I|]); exact I|].
    one_cell. cbn [app].
    apply (d_group _ _ _ _ [$"5" ++ [nl]] _ top $"""top""" [] [[5%Z]]); [vm_compute; reflexivity|vm_compute; reflexivity| | | | |].
    { left. split; [intros [I|[]]; discriminate I|reflexivity]. }
    { apply Forall2_cons; [split; [vm_compute; discriminate|floats]|apply Forall2_nil]. }
    { apply Forall2_cons; [exists some_face; repeat split|apply Forall2_nil]. }
    { exact I. }
    apply d_over. exact I.
  - split; [cbn; distinct_words|]. split; [cbn; distinct_words|]. split; [cbn [text_items some_points map app groups_in flat_map g_name]; distinct_words|].
    apply same_slot. vm_compute. reflexivity.
  - right. cbn. apply perm_swap.
  - right. cbn. apply Permutation_refl.
Qed.
Example C84_case_read : exists m, read (text_of text_lines) = Ok m /\ c_points m = map snd some_points /\
  c_cells m = [($"tetra", [[0; 1; 2; 4]]); ($"hexahedron", [[0; 1; 2; 3; 4; 5; 5; 6]]); ($"triangle", [[0; 1; 2]])] /\
  c_groups m = Some [[2]; [1]; [3]] /\ c_field m = [($"rock", (1, 3%Z)); ($"sand", (2, 3%Z)); ($"top", (3, 2%Z))].
Proof. eexists. split; [vm_compute; reflexivity|]. split; [vm_compute; reflexivity|]. split; [vm_compute; reflexivity|]. split; [vm_compute; reflexivity|]. vm_compute. reflexivity. Qed.

(** The same grid in a binary file. *)
Definition number (z : Z) : str := little 4 z.
Definition b0 : str := repeat (ascii_of_nat 0) 8.
Definition b1 : str := repeat (ascii_of_nat 0) 6 ++ [ascii_of_nat 240; ascii_of_nat 63].
Definition point_file (p : Z * list str) : str := number (fst p) ++ concat (snd p).
Definition cell_file (z : Z) (us : list Z) : str := number z ++ number (Z.of_nat (List.length us)) ++ concat (map number us).
Definition name_file (s : str) : str := little 2 (Z.of_nat (List.length s)) ++ s.
Definition group_file (name slot : str) (us : list Z) : str := name_file name ++ name_file slot ++ number (Z.of_nat (List.length us)) ++ concat (map number us).
Definition point_files : list str := map point_file
  [(10%Z, [b0; b0; b0]); (3%Z, [b1; b0; b0]); (7%Z, [b1; b1; b0]); (1%Z, [b0; b1; b0]); (5%Z, [b0; b0; b1]); (8%Z, [b1; b0; b1]); (4%Z, [b0; b1; b1])].
Definition zone_files : list str := [cell_file 5 [10; 3; 7; 5]%Z; cell_file 2 [10; 3; 1; 5; 7; 4; 8]%Z].
Definition zone_groups : list str := [group_file $"rock" $"1" [2%Z]; group_file $"sand" $"1" [5%Z]].
Definition binary_items : list grid_item :=
  map Gridpoint some_points ++ map Element [some_tetra; some_hexa] ++ map Members [rock; sand] ++ map Element [some_face] ++ map Members [top].
Definition head : str := number 375 ++ number 4.
Definition binary_file : str :=
  head ++ number 7 ++ concat point_files ++ (number 2 ++ concat zone_files ++ number 2 ++ concat zone_groups) ++
  (number 1 ++ concat [cell_file 5 [10; 3; 7]%Z] ++ number 1 ++ concat [group_file $"top" [] [5%Z]]) ++ $"end".
Lemma double_zero : double_of x0 b0.
Proof. exists 0%Z. split; [exact (db_subnormal false 0 ltac:(lia))|]. split; vm_compute; reflexivity. Qed.
Lemma double_one : double_of x1 b1.
Proof. exists (1023 * 2 ^ 52)%Z. split; [exact (db_normal false 1023 0 ltac:(lia) ltac:(lia))|]. split; vm_compute; reflexivity. Qed.
Ltac word := split; vm_compute; reflexivity.
Ltac binary_cell us := eexists; eexists; exists (map number us); do 2 eexists; split; [reflexivity|]; split; [reflexivity|]; split; [word|];
  split; [|split; [constructor|]]; [word|]; repeat (apply Forall2_cons; [eexists; split; [reflexivity|word]|]); apply Forall2_nil.
Lemma ascii_by s : forallb (fun c => N.ltb (N_of_ascii c) 128) s = true -> ascii_name s.
Proof. intros H c I. rewrite forallb_forall in H. specialize (H c I). now apply N.ltb_lt. Qed.
Ltac binary_name := eexists; split; [reflexivity|]; split; [word|apply ascii_by; vm_compute; reflexivity].
Ltac binary_group us := do 3 eexists; exists (map number us); split; [reflexivity|]; split; [reflexivity|]; split; [binary_name|]; split; [binary_name|]; split; [word|];
  repeat (apply Forall2_cons; [eexists; split; [word|eexists; repeat split]|]); apply Forall2_nil.
Example C84_case_binary : binary_grid binary_items binary_file /\ distinct binary_items /\ grouped Solid binary_items /\ grouped Surface binary_items.
Proof.
  split; [|split; [|split]].
  - exists some_points, [some_tetra; some_hexa], [rock; sand], [some_face], [top], head, (number 7), point_files. do 3 eexists.
    split; [reflexivity|]. split; [unfold binary_file; reflexivity|]. split; [reflexivity|]. split; [vm_compute; tauto|]. split; [word|]. split.
    { unfold some_points, point_files. cbn [map].
      repeat (apply Forall2_cons; [eexists; eexists; split; [reflexivity|]; split; [word|]; split; [reflexivity|];
        repeat (apply Forall2_cons; [first [exact double_zero|exact double_one]|]); apply Forall2_nil|]). apply Forall2_nil. }
    split.
    + exists (number 2), zone_files, (number 2), zone_groups. split; [reflexivity|]. split; [word|]. split; [|split; [word|]].
      * unfold zone_files. apply Forall2_cons; [binary_cell [10; 3; 7; 5]%Z|]. apply Forall2_cons; [binary_cell [10; 3; 1; 5; 7; 4; 8]%Z|]. apply Forall2_nil.
      * unfold zone_groups. apply Forall2_cons; [binary_group [2]%Z|]. apply Forall2_cons; [binary_group [5]%Z|]. apply Forall2_nil.
    + exists (number 1), [cell_file 5 [10; 3; 7]%Z], (number 1), [group_file $"top" [] [5%Z]]. split; [reflexivity|]. split; [word|]. split; [|split; [word|]].
      * apply Forall2_cons; [binary_cell [10; 3; 7]%Z|]. apply Forall2_nil.
      * apply Forall2_cons; [binary_group [5]%Z|]. apply Forall2_nil.
  - split; [cbn; distinct_words|]. split; [cbn; distinct_words|]. split; [cbn [binary_items some_points map app groups_in flat_map g_name]; distinct_words|].
    apply same_slot. vm_compute. reflexivity.
  - right. cbn. apply perm_swap.
  - right. cbn. apply Permutation_refl.
Qed.
Example C84_case_binary_read : read binary_file = read (text_of text_lines).
Proof. vm_compute. reflexivity. Qed.

(** Not so if a zone is in no group while another is: the file is refused. *)
Definition loose_items : list grid_item := map Gridpoint (firstn 5 some_points) ++ [Element some_tetra; Element (Cell Solid 6 $"tetra" [1; 2; 3; 4]); Members (Group Solid $"rock" [] [0])].
Definition loose_lines : list str := [$"G 10 0 0 0"; $"G 3 1.0 0 0"; $" G  7 1 1 0"; $"G 1 0 1 0"; $"G 5 0 0 1"; $"Z T4 5 10 3 7 5"; $"Z T4 6 3 7 1 5"; $"ZGROUP rock"; $"5"].
Theorem C84_ungrouped_refuted : exists l file, text_grid l file /\ distinct l /\ read file = Err ValueError.
Proof.
  exists loose_items, (text_of loose_lines). split; [|split].
  - split; [vm_compute; intros I; repeat (destruct I as [I|I]; [discriminate I|]); exact I|].
    replace (lines (text_of loose_lines)) with (map (fun l => l ++ [nl]) loose_lines) by (vm_compute; reflexivity).
    unfold loose_items, loose_lines, some_points. cbn [map app firstn]. do 5 one_point. cbn [app]. do 2 one_cell. cbn [app].
    apply (d_group _ _ _ _ [$"5" ++ [nl]] _ (Group Solid $"rock" [] [0]) $"rock" [] [[5%Z]]); [vm_compute; reflexivity|vm_compute; reflexivity| | | | |].
    { left. split; [intros [I|[]]; discriminate I|reflexivity]. }
    { apply Forall2_cons; [split; [vm_compute; discriminate|floats]|apply Forall2_nil]. }
    { apply Forall2_cons; [exists some_tetra; repeat split|apply Forall2_nil]. }
    { exact I. }
    apply d_over. exact I.
  - split; [cbn; distinct_words|]. split; [cbn; distinct_words|]. split; [cbn [loose_items some_points map app firstn groups_in flat_map g_name]; distinct_words|].
    apply same_slot. vm_compute. reflexivity.
  - vm_compute. reflexivity.
Qed.
Print Assumptions C84_ungrouped_refuted.

(** A blank line hides what follows it; a table of zones right before a group of faces is refused. *)
Theorem C84_blank_refuted : exists a b m m', read (text_of (a ++ b)) = Ok m /\ List.length (flat (c_cells m)) = 2 /\
  read (text_of (a ++ [[]] ++ b)) = Ok m' /\ List.length (flat (c_cells m')) = 1.
Proof.
  exists (firstn 6 loose_lines), [$"Z T4 6 3 7 1 5"]. do 2 eexists. split; [vm_compute; reflexivity|]. split; [vm_compute; reflexivity|]. split; [vm_compute; reflexivity|]. vm_compute. reflexivity.
Qed.
Print Assumptions C84_blank_refuted.
Theorem C84_table_refuted : exists a b m, read (text_of (a ++ [$"*"] ++ b)) = Ok m /\ read (text_of (a ++ b)) = Err ValueError.
Proof.
  exists (firstn 6 loose_lines ++ [$"F T3 5 10 3 7"; $"ZGROUP rock"; $"5"]), [$"FGROUP top"; $"5"]. eexists. split; [vm_compute; reflexivity|]. vm_compute. reflexivity.
Qed.
Print Assumptions C84_table_refuted.
