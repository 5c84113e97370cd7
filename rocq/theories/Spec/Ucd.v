(** The order of the nodes in AVS-UCD files, and the side they turn to. *)
From Coq Require Import String Ascii Arith ZArith QArith Qcanon Bool List.
From Verif Require Import Base.Str.
Import ListNotations.
Local Open Scope nat_scope.

(** Type, nodes in the order of a mesh; the word and the nodes in the file: the
    apex of a pyramid first, the upper triangle of a prism and the upper face of a
    hexahedron first, the last two nodes of a tetrahedron exchanged. *)
Inductive in_ucd : str -> list nat -> str -> list nat -> Prop :=
| ucd_vertex a r : in_ucd $"vertex" (a :: r) $"pt" [a]
| ucd_line a b r : in_ucd $"line" (a :: b :: r) $"line" [a; b]
| ucd_triangle a b c r : in_ucd $"triangle" (a :: b :: c :: r) $"tri" [a; b; c]
| ucd_quad a b c d r : in_ucd $"quad" (a :: b :: c :: d :: r) $"quad" [a; b; c; d]
| ucd_tetra a b c d r : in_ucd $"tetra" (a :: b :: c :: d :: r) $"tet" [a; b; d; c]
| ucd_pyramid a b c d e r : in_ucd $"pyramid" (a :: b :: c :: d :: e :: r) $"pyr" [e; a; b; c; d]
| ucd_wedge a b c d e f r : in_ucd $"wedge" (a :: b :: c :: d :: e :: f :: r) $"prism" [d; e; f; a; b; c]
| ucd_hexahedron a b c d e f g h r : in_ucd $"hexahedron" (a :: b :: c :: d :: e :: f :: g :: h :: r) $"hex" [e; f; g; h; a; b; c; d].

(** Points of space; six times the volume of a tetrahedron, with a sign. *)
Record point := Point { px : Qc; py : Qc; pz : Qc }.
Definition signed (a b c d : point) : Qc :=
  let x p := (px p - px a)%Qc in let y p := (py p - py a)%Qc in let z p := (pz p - pz a)%Qc in
  (x b * (y c * z d - z c * y d) - y b * (x c * z d - z c * x d) + z b * (x c * y d - y c * x d))%Qc.
(** The side to which the first face of a cell turns with respect to its other
    nodes: its first three nodes and a node of the opposite face, or the apex. *)
Definition facing (at_ : nat -> point) (t : str) (vs : list nat) : option Qc :=
  match vs with
  | [a; b; c; d] => if streqb t $"tetra" then Some (signed (at_ a) (at_ b) (at_ c) (at_ d)) else None
  | [a; b; c; d; e; f] => if streqb t $"wedge" then Some (signed (at_ a) (at_ b) (at_ c) (at_ d)) else None
  | [a; b; c; d; e; f; g; h] => if streqb t $"hexahedron" then Some (signed (at_ a) (at_ b) (at_ d) (at_ e)) else None
  | _ => None
  end.
(** Prisms and hexahedra with an upper face like the lower one. *)
Definition moved (u v p q : point) : Prop := (px v - px u = px q - px p /\ py v - py u = py q - py p /\ pz v - pz u = pz q - pz p)%Qc.
Definition upright (at_ : nat -> point) (vs : list nat) : Prop :=
  match vs with
  | [a; b; c; d; e; f] => moved (at_ a) (at_ d) (at_ b) (at_ e) /\ moved (at_ a) (at_ d) (at_ c) (at_ f)
  | [a; b; c; d; e; f; g; h] => moved (at_ a) (at_ e) (at_ b) (at_ f) /\ moved (at_ a) (at_ e) (at_ c) (at_ g) /\ moved (at_ a) (at_ e) (at_ d) (at_ h)
  | _ => True
  end.
