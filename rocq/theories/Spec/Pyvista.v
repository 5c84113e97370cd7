(** Grids of VTK and the cells of a mesh. *)
From Coq Require Import String Ascii Arith ZArith Bool List.
From Verif Require Import Base.Str.
Import ListNotations.
Local Open Scope nat_scope.

(** The cells of VTK by number: the name of the same cell in a mesh and its number of
    nodes; a pixel (8) is a quad, a voxel (11) a hexahedron. *)
Definition vtk_cell (t : nat) : option (str * nat) :=
  match t with
  | 0 => Some ($"empty", 0) | 1 => Some ($"vertex", 1) | 3 => Some ($"line", 2) | 5 => Some ($"triangle", 3) | 8 => Some ($"quad", 4) | 9 => Some ($"quad", 4)
  | 10 => Some ($"tetra", 4) | 11 => Some ($"hexahedron", 8) | 12 => Some ($"hexahedron", 8) | 13 => Some ($"wedge", 6) | 14 => Some ($"pyramid", 5)
  | 15 => Some ($"penta_prism", 10) | 16 => Some ($"hexa_prism", 12)
  | 21 => Some ($"line3", 3) | 22 => Some ($"triangle6", 6) | 23 => Some ($"quad8", 8) | 24 => Some ($"tetra10", 10) | 25 => Some ($"hexahedron20", 20)
  | 26 => Some ($"wedge15", 15) | 27 => Some ($"pyramid13", 13) | 28 => Some ($"quad9", 9) | 29 => Some ($"hexahedron27", 27) | 30 => Some ($"quad6", 6)
  | 31 => Some ($"wedge12", 12) | 32 => Some ($"wedge18", 18) | 33 => Some ($"hexahedron24", 24) | 34 => Some ($"triangle7", 7) | 35 => Some ($"line4", 4)
  | _ => None
  end.

(** The corners of a quad and of a hexahedron in their order; the corner at
    (x, y, z) is node x + 2 y + 4 z of a pixel or voxel. *)
Definition quad_corners : list (nat * nat * nat) := [(0, 0, 0); (1, 0, 0); (1, 1, 0); (0, 1, 0)].
Definition hexa_corners : list (nat * nat * nat) := quad_corners ++ [(0, 0, 1); (1, 0, 1); (1, 1, 1); (0, 1, 1)].
Definition corner_node (nodes : list nat) (c : nat * nat * nat) : nat := let '(x, y, z) := c in nth (x + 2 * y + 4 * z) nodes 0.
Definition in_mesh (t : nat) (nodes : list nat) : list nat :=
  if t =? 8 then map (corner_node nodes) quad_corners else if t =? 11 then map (corner_node nodes) hexa_corners else nodes.

(** Cells with their numbers of VTK. *)
Definition vtk_ok (l : list (nat * list nat)) : Prop :=
  Forall (fun c => exists name n, vtk_cell (fst c) = Some (name, n) /\ List.length (snd c) = n) l.
Definition vtk_names (t : nat) : str := match vtk_cell t with Some (name, _) => name | None => [] end.
(** The array of cells of a grid, each after its number of nodes, and the places of
    these numbers. *)
Definition packed (l : list (nat * list nat)) : list nat := flat_map (fun c => List.length (snd c) :: snd c) l.
Fixpoint starts (from : nat) (l : list (nat * list nat)) : list nat :=
  match l with [] => [] | c :: r => from :: starts (from + 1 + List.length (snd c)) r end.

(** ** Meshes *)
(** Blocks with cells, all of known types. *)
Definition filled (blocks : list (str * list (list nat))) : Prop :=
  blocks <> [] /\ Forall (fun b => snd b <> [] /\ exists t n, t <> 8 /\ t <> 11 /\ vtk_cell t = Some (fst b, n) /\ Forall (fun c => List.length c = n) (snd b)) blocks.
(** Neighbouring blocks have different types. *)
Fixpoint alternate (blocks : list (str * list (list nat))) : Prop :=
  match blocks with b :: ((b' :: _) as r) => fst b <> fst b' /\ alternate r | _ => True end.
(** Names without blanks, all different. *)
Definition plain_names {B} (d : list (str * B)) : Prop := NoDup (map fst d) /\ Forall (fun kv => forallb (fun c => negb (Ascii.eqb c " ")) (fst kv) = true) d.
(** Data with a material for every cell, number 1 when there was none. *)
Definition has_material {B} (d : list (str * B)) : bool := existsb (fun kv => streqb $"material" (fst kv)) d.
Definition with_material {V} (num : Z -> V) (n : nat) (d : list (str * list V)) : list (str * list V) :=
  if has_material d then d else d ++ [($"material", repeat (num 1%Z) n)].
