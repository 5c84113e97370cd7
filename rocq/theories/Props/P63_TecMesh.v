(** C63: Tecplot mesh files. *)
From Coq Require Import String Ascii Arith ZArith Bool Lia List.
From Verif Require Import Base.Str Base.Digits Base.Flt Base.FltText Base.FltExact Model.Py Model.Mesh Model.Avsucd Model.TecMesh Spec.F3grid Spec.Avsucd Spec.TecMesh Proofs.TecMeshProof.
Import ListNotations.
Local Open Scope nat_scope.

(** C63.  A mesh written to a Tecplot file is read back with the same points to the
    last bit, with its solid cells (its flat cells if it has none) in the same order,
    each with the same edges, and with the data of the points and of these cells as
    arrays of floats; cells of one type which the format has keep this type and the
    order of their nodes. *)
Theorem C63_round_trip : forall repr version m file d pcols ccols, write_mesh repr version m = Ok file -> faithful repr -> digit_first repr -> without_newline version ->
  d = 2 \/ d = 3 -> Forall (fun p => List.length p = d /\ Forall (fun x => is_f64 x = true) p) (u_points m) ->
  (forall p x, nth_error (u_points m) 0 = Some p -> nth_error p 0 = Some x -> not_negative x) ->
  complete (u_cells m) -> written_cells (u_cells m) <> [] -> (In 3 (dims (u_cells m)) -> hd 3 (dims (u_cells m)) = 3) ->
  Forall (fun e => regular (snd e) /\ entries (snd e) = List.length (u_points m)) (u_point_data m) -> Forall (fun e => regular (snd e)) (u_cell_data m) ->
  Forall2 scalars (u_point_data m) pcols -> Forall2 scalars (map (restricted (u_cells m)) (u_cell_data m)) ccols ->
  Forall (fun c => readable (fst c)) (concat pcols ++ concat ccols) -> NoDup (map fst (concat pcols ++ concat ccols)) ->
  exists c t conn, read_mesh file = Ok c /\ u_points c = u_points m /\ u_cells c = [(t, conn)] /\
    Forall2 (same_edges t) (written_cells (u_cells m)) conn /\
    (forall t0, plain_type t0 -> (forall b, In b (u_cells m) -> kind_of (fst b) <> None -> fst b = t0) -> t = t0 /\ conn = map snd (written_cells (u_cells m))) /\
    u_point_data c = map floats (concat pcols) /\ (forall l, renamed (map floats (concat ccols)) l -> u_cell_data c = l).
Proof. exact tec_round_trip. Qed.
Print Assumptions C63_round_trip.

(** A way to print which satisfies the hypotheses: seventeen digits. *)
Example C63_printed : faithful (fmt_e 16) /\ digit_first (fmt_e 16).
Proof.
  split.
  - intros x H. split; [now apply parse_fmt_16|]. split; [apply fmt_e_nonempty|]. intros c I.
    pose proof (clean_no_space _ (fmt_e_clean 16 x)) as S. unfold no_space_str in S. rewrite forallb_forall in S. apply S in I. now destruct (is_space c).
  - intros m e _. cbn [fmt_e sign_str app]. destruct (m =? 0)%Z; [|destruct (dec_round _ _ _) as [D E]].
    + destruct (mantissa_head 16 0) as (c & r & -> & H). eexists _, _. split; [reflexivity|exact H].
    + destruct (mantissa_head 16 D) as (c & r & -> & H). eexists _, _. split; [reflexivity|exact H].
Qed.
(** A wedge, a triangle and a pyramid, with materials and data. *)
Definition zero := fzero false.
Definition one := flt_of_Z 1.
Definition corners : list (list flt) := [[zero; zero; zero]; [one; zero; zero]; [zero; one; zero]; [zero; zero; one]; [one; zero; one]; [zero; one; one]].
Definition sample : ucd := Ucd corners [($"wedge", [[0; 1; 2; 3; 4; 5]]); ($"triangle", [[0; 1; 2]]); ($"vertex", [[5]]); ($"pyramid", [[1; 0; 3; 4; 5]])]
  [($"T", Ints [1; 2; 3; 4; 5; -6]%Z); ($"x", Ints [0; 0; 0; 0; 0; 0]%Z)]
  [($"medit:ref", Ints [7; 8; 9; 10]%Z); ($"flow", Rows 2 [[one; zero]; [one; one]; [zero; zero]; [zero; one]])].
Definition sample_points : list (list (str * list flt)) := [[($"T", map flt_of_Z [1; 2; 3; 4; 5; -6]%Z)]; []].
Definition sample_cells : list (list (str * list flt)) := [[($"medit:ref", map flt_of_Z [7; 10]%Z)]; [($"flow_0", [one; zero]); ($"flow_1", [zero; one])]].
Definition reread (m : ucd) : res ucd := let* s := write_mesh (fmt_e 16) $"1.0" m in read_mesh s.
Example C63_hypotheses : Forall (fun p => List.length p = 3 /\ Forall (fun x => is_f64 x = true) p) (u_points sample) /\
  (forall p x, nth_error (u_points sample) 0 = Some p -> nth_error p 0 = Some x -> not_negative x) /\
  complete (u_cells sample) /\ written_cells (u_cells sample) <> [] /\ hd 3 (dims (u_cells sample)) = 3 /\
  Forall (fun e => regular (snd e) /\ entries (snd e) = List.length (u_points sample)) (u_point_data sample) /\ Forall (fun e => regular (snd e)) (u_cell_data sample) /\
  Forall2 scalars (u_point_data sample) sample_points /\ Forall2 scalars (map (restricted (u_cells sample)) (u_cell_data sample)) sample_cells /\
  Forall (fun c => readable (fst c)) (concat sample_points ++ concat sample_cells) /\ NoDup (map fst (concat sample_points ++ concat sample_cells)).
Proof.
  assert (C : forall k, is_axis k = false -> ~ coordinate k) by (intros k E X; apply axis_ok in X; congruence).
  split; [|split; [|split; [|split; [discriminate|split; [reflexivity|split; [|split; [|split; [|split; [|split]]]]]]]]].
  - unfold sample, corners. cbn [u_points]. repeat (apply Forall_cons; [split; [reflexivity|]; repeat (apply Forall_cons; [vm_compute; reflexivity|]); apply Forall_nil|]). apply Forall_nil.
  - intros p x E F. assert (p = [zero; zero; zero]) as -> by (cbn [nth_error u_points sample corners] in E; congruence). assert (x = zero) as -> by (cbn [nth_error] in F; congruence). eexists _, _. reflexivity.
  - intros b k I E. cbn [u_cells sample In] in I. destruct I as [<-|[<-|[<-|[<-|[]]]]]; cbn in E |- *; try discriminate E; assert (Q := f_equal (option_map k_nodes) E); cbn in Q; injection Q as <-; constructor; [reflexivity|constructor|reflexivity|constructor|reflexivity|constructor].
  - cbn [u_point_data sample]. repeat (apply Forall_cons; [split; [cbn [snd regular]; repeat (apply Forall_cons; [lia|]); apply Forall_nil|reflexivity]|]). apply Forall_nil.
  - cbn [u_cell_data sample]. apply Forall_cons; [|apply Forall_cons; [|apply Forall_nil]]; cbn [snd regular]; [repeat (apply Forall_cons; [lia|]); apply Forall_nil|]. split; [lia|].
    repeat (apply Forall_cons; [split; [reflexivity|]; repeat (apply Forall_cons; [vm_compute; reflexivity|]); apply Forall_nil|]). apply Forall_nil.
  - apply Forall2_cons; [apply sc_ints, C; reflexivity|]. apply Forall2_cons; [|apply Forall2_nil]. apply sc_axis. exists "x"%string. split; [cbn; tauto|reflexivity].
  - apply Forall2_cons; [exact (sc_ints $"medit:ref" [7; 10]%Z (C $"medit:ref" eq_refl))|]. apply Forall2_cons; [|apply Forall2_nil].
    apply (sc_rows $"flow" 2 [[one; zero]; [zero; one]]); [apply C; reflexivity|reflexivity|].
    intros [|[|i]] c E; cbn [nth_error] in E.
    + assert (c = ($"flow_0", [one; zero])) as -> by congruence. split; [reflexivity|]. repeat (apply Forall2_cons; [reflexivity|]). apply Forall2_nil.
    + assert (c = ($"flow_1", [zero; one])) as -> by congruence. split; [reflexivity|]. repeat (apply Forall2_cons; [reflexivity|]). apply Forall2_nil.
    + destruct i; discriminate E.
  - assert (B : forall k, k <> [] -> forallb (fun c => negb (is_space c) && negb (Ascii.eqb c ",") && negb (Ascii.eqb c "=") && negb (Ascii.eqb c """"))%char k = true -> readable k).
    { intros k N F. split; [exact N|]. intros c I. rewrite forallb_forall in F. specialize (F c I). apply andb_true_iff in F as [F F4]. apply andb_true_iff in F as [F F3]. apply andb_true_iff in F as [F1 F2].
      apply negb_true_iff in F1, F2, F3, F4. apply Ascii.eqb_neq in F2, F3, F4. auto. }
    cbn [concat app sample_points sample_cells]. repeat (apply Forall_cons; [apply B; [discriminate|reflexivity]|]). apply Forall_nil.
  - cbn [concat app sample_points sample_cells map fst]. repeat (apply NoDup_cons; [intros I; cbn [In] in I; repeat (destruct I as [I|I]; [discriminate I|]); exact I|]). apply NoDup_nil.
Qed.
Example C63_case : reread sample = Ok (Ucd corners [($"hexahedron", [[0; 1; 4; 3; 2; 2; 5; 5]; [1; 0; 3; 4; 5; 5; 5; 5]])]
  [($"T", Floats (map flt_of_Z [1; 2; 3; 4; 5; -6]%Z))] [($"flow_0", Floats [one; zero]); ($"flow_1", Floats [zero; one]); ($"material", Floats (map flt_of_Z [7; 10]%Z))]).
Proof. vm_compute. reflexivity. Qed.

(** What is lost.  If the first coordinate of the first point is negative, the file
    cannot be read: its first row is taken for a part of the header. *)
Definition flat_mesh (x : flt) (cells : list cellblock) (pd cd : list (str * darray)) : ucd := Ucd [[x; zero]; [one; zero]; [one; one]; [zero; one]] cells pd cd.
Theorem C63_negative_refuted : ~ (forall m, Forall (fun p => List.length p = 2 /\ Forall (fun x => is_f64 x = true) p) (u_points m) ->
  complete (u_cells m) -> written_cells (u_cells m) <> [] -> u_point_data m = [] -> u_cell_data m = [] -> exists c, reread m = Ok c).
Proof.
  intros H. destruct (H (flat_mesh (flt_of_Z (-1)) [($"triangle", [[0; 1; 2]])] [] [])) as (c & E); [| |discriminate|reflexivity|reflexivity|].
  - cbn [u_points flat_mesh]. repeat (apply Forall_cons; [split; [reflexivity|]; repeat (apply Forall_cons; [vm_compute; reflexivity|]); apply Forall_nil|]). apply Forall_nil.
  - intros b k I E. cbn [u_cells flat_mesh In] in I. destruct I as [<-|[]]; cbn in E |- *. assert (Q := f_equal (option_map k_nodes) E); cbn in Q; injection Q as <-. constructor; [reflexivity|constructor].
  - vm_compute in E. discriminate E.
Qed.
Print Assumptions C63_negative_refuted.
(** If a flat block comes before the solid ones, solid cells come back as flat cells
    with eight nodes. *)
Theorem C63_first_block_refuted : ~ (forall m c, reread m = Ok c -> complete (u_cells m) -> complete (u_cells c)).
Proof.
  intros H. pose (m := flat_mesh zero [($"triangle", [[0; 1; 2]]); ($"tetra", [[0; 1; 2; 3]])] [] []).
  specialize (H m (flat_mesh zero [($"quad", [[0; 1; 2; 2; 3; 3; 3; 3]])] [] [])).
  assert (X := H ltac:(vm_compute; reflexivity)). clear H.
  assert (C : complete (u_cells m)).
  { intros b k I E. cbn [u_cells flat_mesh m In] in I. destruct I as [<-|[<-|[]]]; cbn in E |- *; assert (Q := f_equal (option_map k_nodes) E); cbn in Q; injection Q as <-; constructor; [reflexivity|constructor|reflexivity|constructor]. }
  specialize (X C _ _ (or_introl eq_refl) eq_refl). apply Forall_inv in X. discriminate X.
Qed.
Print Assumptions C63_first_block_refuted.
(** A block without cells changes the type of all the cells. *)
Theorem C63_empty_block_refuted : ~ (forall m c t, reread m = Ok c -> plain_type t -> Forall (fun cell => fst cell = t) (written_cells (u_cells m)) -> map fst (u_cells c) = [t]).
Proof.
  intros H. specialize (H (flat_mesh zero [($"triangle", [[0; 1; 2]]); ($"quad", [])] [] []) (flat_mesh zero [($"quad", [[0; 1; 2; 2]])] [] []) $"triangle").
  assert (X : map fst (u_cells (flat_mesh zero [($"quad", [[0; 1; 2; 2]])] [] [])) = [$"triangle"]); [|discriminate X].
  apply H; [vm_compute; reflexivity|exists "triangle"%string; split; [cbn; tauto|reflexivity]|]. apply Forall_cons; [reflexivity|apply Forall_nil].
Qed.
Print Assumptions C63_empty_block_refuted.
(** Data of the points are replaced by data of the cells with the same name. *)
Theorem C63_same_name_refuted : ~ (forall m c k l, reread m = Ok c -> In (k, Floats l) (u_point_data m) -> In (k, Floats l) (u_point_data c)).
Proof.
  intros H. specialize (H (flat_mesh zero [($"triangle", [[0; 1; 2]])] [($"k", Floats [one; one; one; zero])] [($"k", Floats [zero])])
    (flat_mesh zero [($"triangle", [[0; 1; 2]])] [($"k", Floats [zero])] [($"k", Floats [zero])]) $"k" [one; one; one; zero]).
  destruct H as [H|[]]; [vm_compute; reflexivity|cbn; tauto|]. assert (X := f_equal (fun e => match snd e with Floats l => List.length l | _ => 0 end) H). discriminate X.
Qed.
Print Assumptions C63_same_name_refuted.
(** Blanks in names become underscores. *)
Theorem C63_blank_refuted : ~ (forall m c k l, reread m = Ok c -> In (k, Floats l) (u_point_data m) -> In (k, Floats l) (u_point_data c)).
Proof.
  intros H. specialize (H (flat_mesh zero [($"triangle", [[0; 1; 2]])] [($"k x", Floats [one; one; one; zero])] [])
    (flat_mesh zero [($"triangle", [[0; 1; 2]])] [($"k_x", Floats [one; one; one; zero])] []) $"k x" [one; one; one; zero]).
  destruct H as [H|[]]; [vm_compute; reflexivity|cbn; tauto|]. assert (X := f_equal fst H). discriminate X.
Qed.
Print Assumptions C63_blank_refuted.
(** The blanks around the last equal sign of a zone matter. *)
Theorem C63_equal_refuted : ~ (forall before after, read_mesh (before ++ $"ET = TRIANGLE" ++ after) = read_mesh (before ++ $"ET=TRIANGLE" ++ after)).
Proof.
  intros H. specialize (H ($"VARIABLES = ""X"", ""Y""" ++ [nl] ++ $"ZONE N=3, E=1, F=FEPOINT, ") ([nl] ++ $"0 0" ++ [nl] ++ $"1 0" ++ [nl] ++ $"0 1" ++ [nl] ++ $"1 2 3" ++ [nl])).
  vm_compute in H. discriminate H.
Qed.
Print Assumptions C63_equal_refuted.
(** Reading a file which ends too early does not end. *)
Theorem C63_short_refuted : ~ (forall file, read_mesh file <> Err Diverge).
Proof.
  intros H. apply (H ($"VARIABLES = ""X"", ""Y""" ++ [nl] ++ $"ZONE N=3, E=1, F=FEPOINT, ET = TRIANGLE" ++ [nl] ++ $"0 0" ++ [nl])). vm_compute. reflexivity.
Qed.
Print Assumptions C63_short_refuted.
