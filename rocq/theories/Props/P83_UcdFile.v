(** C83: AVS-UCD files of other programs. *)
From Coq Require Import String Ascii Arith ZArith Bool Permutation Lia List.
From Verif Require Import Base.Str Base.Digits Base.Flt Base.FltInt Model.Py Model.Avsucd Spec.MeshCells Spec.F3grid Spec.Avsucd Spec.Ucd Proofs.OutputSamples Proofs.UcdFileProof Spec.UcdFile.
Import ListNotations.
Local Open Scope nat_scope.

(** C83.  A file with any comments, with nodes and cells numbered in any way and with
    the lines of the data in any order is read as the mesh it describes: the points in
    the order of the file, each cell with the nodes its numbers name, in the order of a
    mesh, the materials, and each array with the row of each node or cell at its place. *)
Theorem C83_read : forall nodes cells pdata cdata file, ucd_file nodes cells pdata cdata file -> file_ok nodes cells pdata cdata ->
  exists m, read_mesh file = Ok m /\ u_points m = map snd nodes /\ flat (u_cells m) = map (fun c => (c_type c, c_nodes c)) cells /\ merged (u_cells m) /\
    u_point_data m = map data_of pdata /\ u_cell_data m = map data_of cdata ++ [($"material", Ints (map c_material cells))].
Proof. exact ucd_file_read. Qed.
Print Assumptions C83_read.

(** A tetrahedron, a pyramid and a triangle between nodes numbered from 10 downwards. *)
Definition x0 := real 0 0.
Definition x1 := real 1 0.
Definition x2 := real 2 0.
Definition some_nodes : list node :=
  [(10%Z, [x0; x0; x0]); (3%Z, [x1; x0; x0]); (7%Z, [x1; x1; x0]); (1%Z, [x0; x1; x0]); (5%Z, [x0; x0; x2])].
Definition some_cells : list cell :=
  [Cell 4 2 $"tetra" [0; 1; 2; 4]; Cell 8 2 $"pyramid" [0; 1; 2; 3; 4]; Cell 6 1 $"triangle" [2; 1; 0]].
Definition some_pdata : list array := [Array $"flow_rate" 2 [[x0; x1]; [x1; x1]; [x2; x1]; [x0; x2]; [x2; x2]]; Array $"p" 1 [[x1]; [x2]; [x0]; [x1]; [x1]]].
Definition some_cdata : list array := [Array $"age" 1 [[x2]; [x1]; [x0]]].
Definition some_lines : list str :=
  [$"# by another program"; $" #"; $"5 3 3 1 0"; $"10 0 0 0.0"; $"3 1 0 0"; $" 7  1.0 1 0"; $"1 0 1 0"; $"5 0 0 2";
   $"4 2 tet 10 3 5 7"; $"8 2 pyr 5 10 3 7 1"; $"6 1 tri 7 3 10";
   $"2 2 1"; $" flow rate , kg/s, and more"; $"p"; $"1 0 2 1"; $"3 1 1 2"; $"5 2 2 1"; $"7 2 1 0"; $"10 0 1 1";
   $"1 1"; $"age, years"; $"6 0"; $"4 2"; $"8 1"].
Definition text_of (ls : list str) : str := concat (map (fun l => l ++ [nl]) ls).
Ltac one_node := do 3 eexists; split; [vm_compute; reflexivity|]; split; [vm_compute; reflexivity|]; split; [vm_compute; reflexivity|];
  repeat (apply Forall2_cons; [vm_compute; reflexivity|]); apply Forall2_nil.
Ltac one_cell := do 5 eexists; split; [vm_compute; reflexivity|]; split; [vm_compute; reflexivity|]; split; [vm_compute; reflexivity|];
  split; [constructor|]; split; [reflexivity|]; repeat (apply Forall2_cons; [eexists; split; [reflexivity|vm_compute; reflexivity]|]); apply Forall2_nil.
Ltac one_row := do 4 eexists;
  split; [vm_compute; reflexivity|]; split; [vm_compute; reflexivity|]; split; [vm_compute; reflexivity|];
  split; [repeat (apply Forall2_cons; [vm_compute; reflexivity|]); apply Forall2_nil|]; cbn [concat app]; repeat (apply Forall2_cons; [vm_compute; reflexivity|]); apply Forall2_nil.
Definition permb (l k : list nat) : bool := (List.length l =? List.length k) && forallb (fun x => existsb (Nat.eqb x) k) l.
Lemma perm_of l k : NoDup l -> permb l k = true -> Permutation l k.
Proof.
  intros N E. apply andb_true_iff in E as [L F]. apply Nat.eqb_eq in L. apply NoDup_Permutation_bis; [exact N|lia|].
  intros x I. rewrite forallb_forall in F. apply F in I. apply existsb_exists in I as (y & J & E). apply Nat.eqb_eq in E. now subst.
Qed.
Ltac permuted := apply perm_of; [repeat (apply NoDup_cons; [cbn; intuition congruence|]); apply NoDup_nil|vm_compute; reflexivity].
Example C83_file : ucd_file some_nodes some_cells some_pdata some_cdata (text_of some_lines).
Proof.
  exists (map (fun l => l ++ [nl]) [$"# by another program"; $" #"]), ($"5 3 3 1 0" ++ [nl]).
  do 7 eexists. exists (firstn 5 (skipn 3 (map (fun l => l ++ [nl]) some_lines))), (firstn 3 (skipn 8 (map (fun l => l ++ [nl]) some_lines))),
    (firstn 8 (skipn 11 (map (fun l => l ++ [nl]) some_lines))), (skipn 19 (map (fun l => l ++ [nl]) some_lines)), [].
  split; [vm_compute; reflexivity|]. split; [|split].
  { apply Forall_cons; [eexists; vm_compute; reflexivity|]. apply Forall_cons; [eexists; vm_compute; reflexivity|]. apply Forall_nil. }
  { intros (s & E). vm_compute in E. discriminate E. }
  split; [vm_compute; reflexivity|]. split; [vm_compute; reflexivity|]. split; [vm_compute; reflexivity|]. split; [vm_compute; reflexivity|]. split; [vm_compute; reflexivity|].
  split; [|split; [|split]].
  - unfold some_nodes, some_lines. cbn [map skipn firstn]. apply Forall2_cons; [one_node|]. apply Forall2_cons; [one_node|]. apply Forall2_cons; [one_node|].
    apply Forall2_cons; [one_node|]. apply Forall2_cons; [one_node|]. apply Forall2_nil.
  - unfold some_cells, some_lines. cbn [map skipn firstn]. apply Forall2_cons; [one_cell|]. apply Forall2_cons; [one_cell|]. apply Forall2_cons; [one_cell|]. apply Forall2_nil.
  - right. split; [discriminate|]. eexists. exists (map (fun l => l ++ [nl]) [$" flow rate , kg/s, and more"; $"p"]), (map (fun l => l ++ [nl]) [$"1 0 2 1"; $"3 1 1 2"; $"5 2 2 1"; $"7 2 1 0"; $"10 0 1 1"]), [3; 1; 4; 2; 0].
    do 2 eexists. split; [reflexivity|]. split; [vm_compute; reflexivity|]. split; [repeat (apply Forall2_cons; [vm_compute; reflexivity|]); apply Forall2_nil|]. split; [|split].
    + apply Forall2_cons; [do 2 eexists; split; [vm_compute; reflexivity|vm_compute; reflexivity]|]. apply Forall2_cons; [do 2 eexists; split; [vm_compute; reflexivity|vm_compute; reflexivity]|]. apply Forall2_nil.
    + permuted.
    + cbn [map]. unfold some_pdata. apply Forall2_cons; [one_row|]. apply Forall2_cons; [one_row|]. apply Forall2_cons; [one_row|]. apply Forall2_cons; [one_row|]. apply Forall2_cons; [one_row|]. apply Forall2_nil.
  - right. split; [discriminate|]. eexists. exists (map (fun l => l ++ [nl]) [$"age, years"]), (map (fun l => l ++ [nl]) [$"6 0"; $"4 2"; $"8 1"]), [2; 0; 1].
    do 2 eexists. split; [reflexivity|]. split; [vm_compute; reflexivity|]. split; [repeat (apply Forall2_cons; [vm_compute; reflexivity|]); apply Forall2_nil|]. split; [|split].
    + apply Forall2_cons; [do 2 eexists; split; [vm_compute; reflexivity|vm_compute; reflexivity]|]. apply Forall2_nil.
    + permuted.
    + cbn [map]. unfold some_cdata. apply Forall2_cons; [one_row|]. apply Forall2_cons; [one_row|]. apply Forall2_cons; [one_row|]. apply Forall2_nil.
Qed.
Example C83_ok : file_ok some_nodes some_cells some_pdata some_cdata.
Proof.
  unfold file_ok. split; [discriminate|]. split; [discriminate|]. split; [cbn; repeat (apply NoDup_cons; [cbn; intuition congruence|]); apply NoDup_nil|].
  split; [cbn; repeat (apply NoDup_cons; [cbn; intuition congruence|]); apply NoDup_nil|].
  split; [exists 3; unfold some_nodes; repeat (apply Forall_cons; [reflexivity|]); apply Forall_nil|].
  split; [|split; [|split; [|split]]].
  - unfold some_pdata. repeat (apply Forall_cons; [split; [cbn; lia|split; [reflexivity|cbn [a_rows]; repeat (apply Forall_cons; [reflexivity|]); apply Forall_nil]]|]). apply Forall_nil.
  - unfold some_cdata. repeat (apply Forall_cons; [split; [cbn; lia|split; [reflexivity|cbn [a_rows]; repeat (apply Forall_cons; [reflexivity|]); apply Forall_nil]]|]). apply Forall_nil.
  - cbn [map a_name some_pdata]. repeat (apply NoDup_cons; [cbn [In]; intros I; repeat (destruct I as [I|I]; [discriminate I|]); exact I|]). apply NoDup_nil.
  - cbn [map a_name some_cdata]. repeat (apply NoDup_cons; [cbn [In]; intros I; exact I|]). apply NoDup_nil.
  - unfold some_cdata. apply Forall_cons; [|apply Forall_nil]. intros (s & I & E). cbn in I. destruct I as [<-|[<-|[<-|[<-|[<-|[]]]]]]; discriminate E.
Qed.
Example C83_case : read_mesh (text_of some_lines) = Ok (Ucd (map snd some_nodes)
  [($"tetra", [[0; 1; 2; 4]]); ($"pyramid", [[0; 1; 2; 3; 4]]); ($"triangle", [[2; 1; 0]])]
  [($"flow_rate", Rows 2 [[x0; x1]; [x1; x1]; [x2; x1]; [x0; x2]; [x2; x2]]); ($"p", Floats [x1; x2; x0; x1; x1])]
  [($"age", Floats [x2; x1; x0]); ($"material", Ints [2; 2; 1]%Z)]).
Proof. vm_compute. reflexivity. Qed.

(** C83.  The data of the cells must not be named [material]: such data are lost, the
    mesh has the materials of the lines of the cells instead. *)
Theorem C83_material_refuted : exists nodes cells cdata file m, ucd_file nodes cells [] cdata file /\
  nodes <> [] /\ cells <> [] /\ NoDup (map fst nodes) /\ NoDup (map c_number cells) /\ Forall (array_ok (List.length cells)) cdata /\
  map a_name cdata = [$"material"] /\ read_mesh file = Ok m /\ u_cell_data m = [($"material", Ints (map c_material cells))] /\
  map data_of cdata = [($"material", Floats [x2])] /\ map c_material cells = [1%Z].
Proof.
  exists [(1%Z, [x0; x0; x0]); (2%Z, [x1; x0; x0])], [Cell 1 1 $"line" [0; 1]], [Array $"material" 1 [[x2]]].
  exists (text_of [$"2 1 0 1 0"; $"1 0 0 0"; $"2 1 0 0"; $"1 1 line 1 2"; $"1 1"; $"material, none"; $"1 2.0"]).
  eexists. split; [|split; [discriminate|split; [discriminate|]]].
  - exists [], ($"2 1 0 1 0" ++ [nl]). do 7 eexists. exists (map (fun l => l ++ [nl]) [$"1 0 0 0"; $"2 1 0 0"]), (map (fun l => l ++ [nl]) [$"1 1 line 1 2"]), [],
      (map (fun l => l ++ [nl]) [$"1 1"; $"material, none"; $"1 2.0"]), [].
    split; [vm_compute; reflexivity|]. split; [apply Forall_nil|]. split; [intros (s & E); vm_compute in E; discriminate E|].
    split; [vm_compute; reflexivity|]. split; [vm_compute; reflexivity|]. split; [vm_compute; reflexivity|]. split; [vm_compute; reflexivity|]. split; [vm_compute; reflexivity|].
    split; [|split; [|split]].
    + cbn [map]. apply Forall2_cons; [one_node|]. apply Forall2_cons; [one_node|]. apply Forall2_nil.
    + cbn [map]. apply Forall2_cons; [one_cell|]. apply Forall2_nil.
    + left. split; [reflexivity|]. split; reflexivity.
    + right. split; [discriminate|]. eexists. exists (map (fun l => l ++ [nl]) [$"material, none"]), (map (fun l => l ++ [nl]) [$"1 2.0"]), [0].
      do 2 eexists. split; [reflexivity|]. split; [vm_compute; reflexivity|]. split; [repeat (apply Forall2_cons; [vm_compute; reflexivity|]); apply Forall2_nil|]. split; [|split].
      * apply Forall2_cons; [do 2 eexists; split; [vm_compute; reflexivity|vm_compute; reflexivity]|]. apply Forall2_nil.
      * permuted.
      * cbn [map]. apply Forall2_cons; [one_row|]. apply Forall2_nil.
  - split; [cbn; repeat (apply NoDup_cons; [cbn; intuition congruence|]); apply NoDup_nil|]. split; [cbn; repeat (apply NoDup_cons; [cbn; intuition congruence|]); apply NoDup_nil|].
    split; [apply Forall_cons; [split; [cbn; lia|split; [reflexivity|cbn [a_rows]; repeat (apply Forall_cons; [reflexivity|]); apply Forall_nil]]|apply Forall_nil]|].
    split; [reflexivity|]. split; [vm_compute; reflexivity|]. split; [reflexivity|]. split; [reflexivity|]. reflexivity.
Qed.
Print Assumptions C83_material_refuted.
