(** C50: AVS-UCD files. *)
From Coq Require Import String Ascii Arith ZArith QArith Qcanon Bool Lia List.
From Verif Require Import Base.Str Base.Digits Base.Flt Base.FltText Base.FltExact Model.Py Model.Mesh Model.Avsucd Spec.MeshCells Spec.F3grid Spec.Avsucd Spec.Ucd Proofs.F3Text Proofs.AvsucdProof Proofs.UcdProof.
Import ListNotations.
Local Open Scope nat_scope.

(** C50.  A mesh written to AVS-UCD is read back with the same points, with the
    same cells each with the same corners in the same order, with the materials of
    the cells, and with the data of the points and of the cells to fifteen digits
    under their names (blanks as underscores). *)
Theorem C50_round_trip : forall repr version m file others', write_mesh repr version m = Ok file -> faithful repr -> without_newline version ->
  u_points m <> [] -> (Z.of_nat (List.length (u_points m)) < 2 ^ 53)%Z -> Forall (Forall (fun x => is_f64 x = true)) (u_points m) ->
  flat (u_cells m) <> [] -> valid (List.length (u_points m)) (flat (u_cells m)) -> other_data (u_cell_data m) others' ->
  Forall (fun e => plain_label (fst e) /\ regular (snd e)) (u_point_data m ++ others') ->
  NoDup (map (fun e => underscored (fst e)) (u_point_data m)) -> NoDup (map (fun e => underscored (fst e)) others') ->
  exists c data zs, read_mesh file = Ok c /\ Forall2 in_3d (u_points m) (u_points c) /\
    Forall2 kept (flat (u_cells m)) (flat (u_cells c)) /\ merged (u_cells c) /\
    Forall2 same_entry (u_point_data m) (u_point_data c) /\
    u_cell_data c = data ++ [($"material", Ints zs)] /\ Forall2 same_entry others' data /\ materials_of (List.length (flat (u_cells m))) (u_cell_data m) zs.
Proof. exact ucd_round_trip. Qed.
Print Assumptions C50_round_trip.

(** A way to print which satisfies the hypothesis: seventeen digits. *)
Example C50_faithful : faithful (fmt_e 16).
Proof.
  intros x H. split; [now apply parse_fmt_16|]. split; [apply fmt_e_nonempty|]. intros c I.
  pose proof (clean_no_space _ (fmt_e_clean 16 x)) as S. unfold no_space_str in S. rewrite forallb_forall in S. apply S in I. now destruct (is_space c).
Qed.
(** A pyramid, a wedge and two triangles, with materials and data. *)
Definition zero := fzero false.
Definition one := flt_of_Z 1.
Definition plane : list (list flt) := [[zero; zero]; [one; zero]; [one; one]; [zero; one]; [zero; one]; [one; one]].
Definition shapes : list cellblock := [($"triangle", [[0; 1; 2]]); ($"pyramid", [[0; 1; 2; 3; 4]]); ($"triangle", []); ($"wedge", [[0; 1; 2; 3; 4; 5]]); ($"wedge", [[5; 4; 3; 2; 1; 0]])].
Definition sample : ucd := Ucd plane shapes [($"a b", Ints [1; 2; 3; 4; 5; 6]%Z)]
  [($"flow", Rows 2 [[one; zero]; [zero; one]; [one; one]; [zero; zero]]); ($"gmsh:physical", Ints [4; 3; 2; 1]%Z)].
Definition reread (m : ucd) : res ucd := let* s := write_mesh (fmt_e 16) $"1.0" m in read_mesh s.
Example C50_hypotheses : u_points sample <> [] /\ Forall (Forall (fun x => is_f64 x = true)) (u_points sample) /\ flat (u_cells sample) <> [] /\
  valid (List.length (u_points sample)) (flat (u_cells sample)) /\ other_data (u_cell_data sample) [($"flow", Rows 2 [[one; zero]; [zero; one]; [one; one]; [zero; zero]])] /\
  Forall (fun e => plain_label (fst e) /\ regular (snd e)) (u_point_data sample ++ [($"flow", Rows 2 [[one; zero]; [zero; one]; [one; one]; [zero; zero]])]).
Proof.
  split; [discriminate|]. split; [|split; [discriminate|split; [|split]]].
  - unfold sample, plane. cbn [u_points]. repeat (apply Forall_cons; [repeat (apply Forall_cons; [vm_compute; reflexivity|]); apply Forall_nil|]). apply Forall_nil.
  - unfold valid. cbn. repeat (apply Forall_cons; [cbn; repeat (apply Forall_cons; [lia|]); apply Forall_nil|]). apply Forall_nil.
  - apply od_other; [|apply od_material; [|constructor]].
    + intros (s & I & E). cbn in I. destruct I as [<-|[<-|[<-|[<-|[<-|[]]]]]]; discriminate E.
    + exists "gmsh:physical"%string. split; [cbn; tauto|reflexivity].
  - assert (B : forall c, In c $"a b" -> c <> nl /\ c <> ","%char) by (intros c [<-|[<-|[<-|[]]]]; split; discriminate).
    assert (B' : forall c, In c $"flow" -> c <> nl /\ c <> ","%char) by (intros c [<-|[<-|[<-|[<-|[]]]]]; split; discriminate).
    cbn [app u_point_data sample]. apply Forall_cons; [|apply Forall_cons; [|apply Forall_nil]]; cbn [fst snd].
    + split; [split; [reflexivity|split; intros I; now destruct (B _ I)]|]. cbn [regular]. repeat (apply Forall_cons; [lia|]). apply Forall_nil.
    + split; [split; [reflexivity|split; intros I; now destruct (B' _ I)]|]. cbn [regular]. split; [lia|].
      repeat (apply Forall_cons; [split; [reflexivity|]; repeat (apply Forall_cons; [vm_compute; reflexivity|]); apply Forall_nil|]). apply Forall_nil.
Qed.
Example C50_case : exists xs, reread sample = Ok (Ucd (map (fun p => p ++ [zero]) plane)
    [($"triangle", [[0; 1; 2]]); ($"pyramid", [[0; 1; 2; 3; 4]]); ($"wedge", [[0; 1; 2; 3; 4; 5]; [5; 4; 3; 2; 1; 0]])]
    [($"a_b", Floats xs)] [($"flow", Rows 2 [[one; zero]; [zero; one]; [one; one]; [zero; zero]]); ($"material", Ints [4; 3; 2; 1]%Z)]).
Proof. eexists. vm_compute. reflexivity. Qed.

(** C50.  In the file: one line per cell, in their order, each with its number, its
    material, the word of its type and its nodes in the order of the format; the
    first faces of tetrahedra, prisms and hexahedra turn to the other side. *)
Theorem C50_lines : forall repr version m file, write_mesh repr version m = Ok file -> exists pre lines post, file = pre ++ concat lines ++ post /\
  List.length lines = List.length (flat (u_cells m)) /\
  forall i t vs, nth_error (flat (u_cells m)) i = Some (t, vs) -> exists line mat w ws, nth_error lines i = Some (line ++ [nl]) /\ ~ In nl line /\
    in_ucd t vs w ws /\ split_ws line = print_Z (Z.of_nat i + 1) :: print_Z mat :: w :: map (fun v => print_Z (Z.of_nat v + 1)) ws.
Proof. exact ucd_lines. Qed.
Print Assumptions C50_lines.
Theorem C50_turned : forall at_ t vs w ws x, in_ucd t vs w ws -> upright at_ vs -> facing at_ t vs = Some x -> facing at_ t ws = Some (- x)%Qc.
Proof. exact ucd_turned. Qed.
Print Assumptions C50_turned.
Definition corner (i : nat) : point := nth i [Point 0 0 0; Point 1 0 0; Point 0 1 0; Point 0 0 1]%Qc (Point 0 0 0)%Qc.
Example C50_turned_case : in_ucd $"tetra" [0; 1; 2; 3] $"tet" [0; 1; 3; 2] /\ upright corner [0; 1; 2; 3] /\ facing corner $"tetra" [0; 1; 2; 3] = Some 1%Qc /\
  facing corner $"tetra" [0; 1; 3; 2] = Some (- (1))%Qc.
Proof. split; [constructor|]. split; [exact I|]. split; vm_compute; f_equal; apply Qc_is_canon; reflexivity. Qed.

(** What is lost.  Only the first array of materials is kept. *)
Definition with_data (cd : list (str * darray)) : ucd := Ucd (map (fun p => p ++ [zero]) plane) [($"triangle", [[0; 1; 2]; [1; 2; 3]])] [] cd.
Theorem C50_materials_refuted : ~ (forall m c k, reread m = Ok c -> In k (map fst (u_cell_data m)) -> In k (map fst (u_cell_data c)) \/ In $"material" (map fst (u_cell_data c)) /\ List.length (u_cell_data c) = List.length (u_cell_data m)).
Proof.
  intros H. specialize (H (with_data [($"material", Ints [1; 2]%Z); ($"medit:ref", Ints [3; 4]%Z)])
    (with_data [($"material", Ints [1; 2]%Z)]) $"medit:ref").
  destruct H as [[H|[]]|[_ H]]; [vm_compute; reflexivity|cbn; tauto|discriminate H|discriminate H].
Qed.
Print Assumptions C50_materials_refuted.
(** A name is cut at its first comma, and two names may become one. *)
Theorem C50_comma_refuted : ~ (forall m c k, reread m = Ok c -> In k (map fst (u_cell_data m)) -> In (underscored k) (map fst (u_cell_data c))).
Proof.
  intros H. specialize (H (with_data [($"k,x", Floats [zero; one])]) (with_data [($"k", Floats [zero; one]); ($"material", Ints [0; 0]%Z)]) $"k,x").
  destruct H as [H|[H|[]]]; [vm_compute; reflexivity|cbn; tauto|discriminate H|discriminate H].
Qed.
Print Assumptions C50_comma_refuted.
Theorem C50_names_refuted : ~ (forall m c k d, reread m = Ok c -> In (k, d) (u_cell_data m) -> exists d', In (underscored k, d') (u_cell_data c) /\ same_data d d').
Proof.
  intros H. destruct (H (with_data [($"k x", Floats [zero; one]); ($"k_x", Floats [one; one])])
    (with_data [($"k_x", Floats [one; one]); ($"material", Ints [0; 0]%Z)]) $"k x" (Floats [zero; one])) as (d' & I & S); [vm_compute; reflexivity|cbn; tauto|].
  cbn [same_data] in S. subst d'. cbn [u_cell_data with_data] in I. destruct I as [I|[I|[]]]; [|discriminate I].
  assert (X : Floats (map (rnd_e 14) [zero; one]) = Floats [one; one]) by congruence. vm_compute in X. discriminate X.
Qed.
Print Assumptions C50_names_refuted.
(** Data keep fifteen digits, not all bits. *)
Theorem C50_digits_refuted : ~ (forall m c k d, reread m = Ok c -> In (k, d) (u_cell_data m) -> In (k, d) (u_cell_data c)).
Proof.
  intros H. pose (x := Fin false 4503599627370497 (-52)).
  specialize (H (with_data [($"k", Floats [x; one])]) (with_data [($"k", Floats [one; one]); ($"material", Ints [0; 0]%Z)]) $"k" (Floats [x; one])).
  destruct H as [H|[H|[]]]; [vm_compute; reflexivity|cbn; tauto| |discriminate H].
  assert (X := f_equal (fun e => match snd e with Floats (y :: _) => Some y | _ => None end) H). vm_compute in X. discriminate X.
Qed.
Print Assumptions C50_digits_refuted.
