(** C38, C39: cell data and connectivity of meshes. *)
From Coq Require Import String Ascii Arith ZArith Bool Lia Permutation List.
From Verif Require Import Base.Str Model.Py Model.Numpy Model.Mesh Spec.MeshCells Proofs.ConnectProof Proofs.BlocksProof Proofs.FaceProof.
Import ListNotations.
Local Open Scope nat_scope.

(** Two triangles, a quad and again a triangle. *)
Definition mixed : list cellblock := [($"triangle", [[0; 1; 2]; [1; 3; 2]]); ($"quad", [[4; 5; 6; 7]]); ($"triangle", [[2; 3; 8]])].
(** Two tetrahedra on the same triangle, and a pyramid far from them. *)
Definition solids : list cellblock := [($"tetra", [[0; 1; 2; 3]; [4; 3; 1; 2]]); ($"pyramid", [[5; 6; 7; 8; 9]])].

(** C38.  Data are split into one piece per block, and the pieces joined are the
    data. *)
Theorem C38_split : forall (V : Type) (cells : list cellblock) (arr : list V), cells <> [] -> List.length arr = n_cells cells ->
  exists ps, split cells arr = Ok ps /\ concat ps = arr /\ map (@List.length V) ps = sizes cells.
Proof. exact @split_ok. Qed.
Print Assumptions C38_split.
(** C38.  Data of another length are refused. *)
Theorem C38_split_refused : forall (V : Type) (cells : list cellblock) (arr : list V),
  List.length arr <> n_cells cells -> split cells arr = Err ValueError.
Proof. exact @split_refused. Qed.
Print Assumptions C38_split_refused.
Example C38_split_case : split mixed [10; 11; 12; 13] = Ok [[10; 11]; [12]; [13]] /\ split mixed [10; 11] = Err ValueError.
Proof. vm_compute. split; reflexivity. Qed.

(** C38.  From blocks to types and back: one block per type, the cells of each type
    in the same order, each with its values, and the same names of data. *)
Theorem C38_layouts : forall (V : Type) (cells : list cellblock) (data : list (str * list (list V))),
  cells <> [] -> NoDup (map fst data) -> Forall (fun kv => map (@List.length V) (snd kv) = sizes cells) data ->
  exists oc od nd,
    get_old_meshio_cells cells data = Ok (oc, od) /\ get_new_meshio_cells oc od = Ok (oc, nd) /\
    NoDup (map fst oc) /\
    (forall t, filter (fun x => streqb t (fst x)) (flat oc) = filter (fun x => streqb t (fst x)) (flat cells)) /\
    (forall k, In k (map fst nd) <-> In k (map fst data)) /\
    (forall k ps, In (k, ps) data ->
      (exists ps', assoc k nd = Ok ps' /\ map (@List.length V) ps' = sizes oc /\
        forall t, filter (has_type t) (paired oc ps') = filter (has_type t) (paired cells ps)) /\
      (forall t cs, In (t, cs) oc -> exists dt v, assoc t od = Ok dt /\ assoc k dt = Ok v /\
        combine (map (pair t) cs) v = filter (has_type t) (paired cells ps))).
Proof. exact @layouts. Qed.
Print Assumptions C38_layouts.
Example C38_layouts_case : exists od,
  get_old_meshio_cells mixed [($"porosity", [[10; 11]; [12]; [13]])] =
    Ok ([($"triangle", [[0; 1; 2]; [1; 3; 2]; [2; 3; 8]]); ($"quad", [[4; 5; 6; 7]])], od) /\
  od = [($"triangle", [($"porosity", [10; 11; 13])]); ($"quad", [($"porosity", [12])])] /\
  get_new_meshio_cells [($"triangle", [[0; 1; 2]; [1; 3; 2]; [2; 3; 8]]); ($"quad", [[4; 5; 6; 7]])] od =
    Ok ([($"triangle", [[0; 1; 2]; [1; 3; 2]; [2; 3; 8]]); ($"quad", [[4; 5; 6; 7]])], [($"porosity", [[10; 11; 13]; [12]])]).
Proof. eexists. vm_compute. repeat split. Qed.

(** C39.  The entry of a face is the cell on its other side when exactly two cell
    faces have these nodes, and -1 otherwise. *)
Theorem C39_connections : forall dim cells out, connections dim cells = Ok out ->
  exists F, surfaces cells F /\ List.length out = n_cells cells /\ Forall (fun row => List.length row = 6) out /\
  (forall p q, interface F p q -> entry out p = Some (Z.of_nat (fst q))) /\
  (forall p, fst p < n_cells cells -> snd p < 6 -> (forall q, ~ interface F p q) -> entry out p = Some (-1)%Z) /\
  (forall p j, entry out p = Some (Z.of_nat j) -> exists g, interface F p (j, g)).
Proof. exact connections_full. Qed.
Print Assumptions C39_connections.
(** C39.  Meshes of tetrahedra, pyramids, wedges and hexahedra have connections. *)
Theorem C39_total : forall cells, solid cells -> exists out, connections 3 cells = Ok out.
Proof. exact connections_total. Qed.
Print Assumptions C39_total.
(** C39.  The relation is symmetric. *)
Theorem C39_symmetric : forall dim cells out i j k, connections dim cells = Ok out -> entry out (i, j) = Some (Z.of_nat k) ->
  exists j', entry out (k, j') = Some (Z.of_nat i).
Proof. exact connections_symmetric. Qed.
Print Assumptions C39_symmetric.
Example C39_connections_case : solid solids /\ connections 3 solids =
  Ok [[1; -1; -1; -1; -1; -1]; [0; -1; -1; -1; -1; -1]; [-1; -1; -1; -1; -1; -1]]%Z.
Proof.
  split; [|vm_compute; reflexivity].
  repeat (constructor; [eexists; split; [reflexivity|repeat constructor]|]). constructor.
Qed.
