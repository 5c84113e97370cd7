(** Cells, faces and neighbours. *)
From Coq Require Import String Ascii Arith ZArith Bool Permutation List.
From Verif Require Import Base.Str.
Import ListNotations.
Local Open Scope nat_scope.

(** The cells of a mesh one by one, with their type. *)
Definition flat (cells : list (str * list (list nat))) : list (str * list nat) :=
  flat_map (fun b => map (pair (fst b)) (snd b)) cells.

(** [F] lists the faces of each cell; [face F p] is face [snd p] of cell [fst p]. *)
Definition face (F : list (list (list nat))) (p : nat * nat) : option (list nat) :=
  match nth_error F (fst p) with Some c => nth_error c (snd p) | None => None end.
Definition same_face (F : list (list (list nat))) (p q : nat * nat) : Prop :=
  exists f g, face F p = Some f /\ face F q = Some g /\ Permutation f g.
(** [p] and [q] are two sides of one face, and no third cell face has its nodes. *)
Definition interface (F : list (list (list nat))) (p q : nat * nat) : Prop :=
  p <> q /\ same_face F p q /\ (forall r, same_face F p r -> r = p \/ r = q).
Definition entry (out : list (list Z)) (p : nat * nat) : option Z :=
  match nth_error out (fst p) with Some row => nth_error row (snd p) | None => None end.

(** The cells the package knows, with their number of nodes. *)
Definition nodes_of (type : str) : option nat :=
  if streqb type $"tetra" then Some 4
  else if streqb type $"pyramid" then Some 5
  else if streqb type $"wedge" then Some 6
  else if streqb type $"hexahedron" then Some 8
  else None.
Definition solid (cells : list (str * list (list nat))) : Prop :=
  Forall (fun b => exists n, nodes_of (fst b) = Some n /\ Forall (fun c => List.length c = n) (snd b)) cells.

(** A closed surface with consistent orientation: every edge of a face is the
    edge of exactly one face in the other direction. *)
Definition edges (f : list nat) : list (nat * nat) :=
  match f with [] => [] | a :: r => combine f (r ++ [a]) end.
Definition closed_surface (t : list (list nat)) : Prop :=
  NoDup (flat_map edges t) /\ forall a b, In (a, b) (flat_map edges t) -> In (b, a) (flat_map edges t).

(** The number of cells of each block. *)
Definition sizes (cells : list (str * list (list nat))) : list nat := map (fun b => List.length (snd b)) cells.
(** The cells with their values, for one array of values per block. *)
Definition paired {V} (cells : list (str * list (list nat))) (ps : list (list V)) : list ((str * list nat) * V) :=
  combine (flat cells) (concat ps).
Definition has_type {V} (t : str) (x : (str * list nat) * V) : bool := streqb t (fst (fst x)).

(** The corners of the faces of each cell, by increasing number. *)
Definition standard_faces (type : str) : list (list nat) :=
  if streqb type $"tetra" then [[0; 1; 2]; [0; 1; 3]; [0; 2; 3]; [1; 2; 3]]
  else if streqb type $"pyramid" then [[0; 1; 2; 3]; [0; 1; 4]; [1; 2; 4]; [2; 3; 4]; [0; 3; 4]]
  else if streqb type $"wedge" then [[0; 1; 2]; [3; 4; 5]; [0; 1; 3; 4]; [1; 2; 4; 5]; [0; 2; 3; 5]]
  else if streqb type $"hexahedron" then [[0; 1; 2; 3]; [4; 5; 6; 7]; [0; 1; 4; 5]; [1; 2; 5; 6]; [2; 3; 6; 7]; [0; 3; 4; 7]]
  else [].
(** [F] has, for each cell of the mesh, the faces of that cell: the local corners
    form a closed oriented surface whose faces are the standard ones. *)
Definition surfaces (cells : list (str * list (list nat))) (F : list (list (list nat))) : Prop :=
  Forall2 (fun tc fs => exists table order, closed_surface table /\
    Permutation order (standard_faces (fst tc)) /\ Forall2 (@Permutation nat) table order /\
    Forall2 (fun t f => map (nth_error (snd tc)) t = map Some f) table fs) (flat cells) F.
