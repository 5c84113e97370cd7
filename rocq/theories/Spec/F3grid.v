(** Cells, handedness and group names, for FLAC3D grids. *)
From Coq Require Import String Ascii Arith ZArith QArith Qcanon Bool Permutation List.
From Verif Require Import Base.Str Base.Digits Base.Flt Spec.MeshCells.
Import ListNotations.
Local Open Scope nat_scope.

(** The shape of a cell: solid or surface, the type of the cell of its corners and
    their number. *)
Inductive body := Solid | Surface.
Definition shapes : list (body * string * nat * list string) :=
  [(Solid, "tetra", 4, ["tetra"; "tetra10"]);
   (Solid, "pyramid", 5, ["pyramid"; "pyramid13"]);
   (Solid, "wedge", 6, ["wedge"; "wedge12"; "wedge15"; "wedge18"]);
   (Solid, "hexahedron", 8, ["hexahedron"; "hexahedron20"; "hexahedron24"; "hexahedron27"]);
   (Surface, "triangle", 3, ["triangle"; "triangle6"; "triangle7"]);
   (Surface, "quad", 4, ["quad"; "quad8"; "quad9"])]%string.
Definition shaped (t : str) (b : body) (t' : str) (n : nat) : Prop :=
  exists name all s, In (b, name, n, all) shapes /\ In s all /\ t = lit s /\ t' = lit name.

(** The faces of the linear solids, with outward normals. *)
Definition outward (t : str) : list (list nat) :=
  if streqb t $"tetra" then [[0; 2; 1]; [0; 1; 3]; [1; 2; 3]; [0; 3; 2]]
  else if streqb t $"pyramid" then [[0; 3; 2; 1]; [0; 1; 4]; [1; 2; 4]; [2; 3; 4]; [3; 0; 4]]
  else if streqb t $"wedge" then [[0; 2; 1]; [3; 4; 5]; [0; 1; 4; 3]; [1; 2; 5; 4]; [2; 0; 3; 5]]
  else if streqb t $"hexahedron" then [[0; 3; 2; 1]; [4; 5; 6; 7]; [0; 1; 5; 4]; [1; 2; 6; 5]; [2; 3; 7; 6]; [3; 0; 4; 7]]
  else [].
Definition rotation {A} (f g : list A) : Prop := exists a b, f = a ++ b /\ g = b ++ a.
(** [c'] has the nodes and the faces of [c], each face run through backwards. *)
Definition turned {A} (t : str) (c c' : list A) : Prop :=
  forall f, In f (outward t) -> exists g, In g (outward t) /\
    rotation (map (nth_error c') g) (rev (map (nth_error c) f)).
Definition opposite {A} (t : str) (c c' : list A) : Prop :=
  Permutation c c' /\ turned t c c' /\ turned t c' c.

(** Four points [p0], [p1], [p2], [p3] in space: the volume (p1 - p0) . ((p2 - p0) x (p3 - p0)). *)
Definition point := (Qc * Qc * Qc)%type.
Local Open Scope Qc_scope.
Definition minus (p q : point) : point := let '(x, y, z) := p in let '(x', y', z') := q in (x - x', y - y', z - z').
Definition cross (p q : point) : point :=
  let '(x, y, z) := p in let '(x', y', z') := q in (y * z' - z * y', z * x' - x * z', x * y' - y * x').
Definition dot (p q : point) : Qc := let '(x, y, z) := p in let '(x', y', z') := q in x * x' + y * y' + z * z'.
Definition volume (p0 p1 p2 p3 : point) : Qc := dot (minus p1 p0) (cross (minus p2 p0) (minus p3 p0)).
Local Open Scope nat_scope.
(** [located points is ps]: the nodes [is] are the points [ps]. *)
Definition located (points : list (list Qc)) (is : list nat) (ps : list point) : Prop :=
  Forall2 (fun i p => let '(x, y, z) := p in nth_error points i = Some [x; y; z]) is ps.
(** A corner of each solid with three neighbours.  In meshes following VTK's
    convention they are in the directions x, y and z: the base of the tetrahedron,
    of the pyramid and of the hexahedron has its normal inwards, that of the wedge
    outwards. *)
Definition frame (t : str) : list nat :=
  if streqb t $"pyramid" || streqb t $"hexahedron" then [0; 1; 3; 4]
  else if streqb t $"wedge" then [0; 2; 1; 3] else [0; 1; 2; 3].

(** A cell and what becomes of it: the corners, possibly with the other orientation. *)
Definition comes_back (a b : str * list nat) : Prop :=
  exists k n, shaped (fst a) k (fst b) n /\
    (snd b = firstn n (snd a) \/ k = Solid /\ opposite (fst b) (firstn n (snd a)) (snd b)).
Definition is_solid (a : str * list nat) : Prop := exists t n, shaped (fst a) Solid t n.
Definition is_surface (a : str * list nat) : Prop := exists t n, shaped (fst a) Surface t n.
(** [zs] are the solids and [fs] the surfaces of [l], in order. *)
Inductive sorted_out : list (str * list nat) -> list (str * list nat) -> list (str * list nat) -> Prop :=
| so_nil : sorted_out [] [] []
| so_solid a l zs fs : is_solid a -> sorted_out l zs fs -> sorted_out (a :: l) (a :: zs) fs
| so_surface a l zs fs : is_surface a -> sorted_out l zs fs -> sorted_out (a :: l) zs (a :: fs)
| so_other a l zs fs : ~ is_solid a -> ~ is_surface a -> sorted_out l zs fs -> sorted_out (a :: l) zs fs.
(** Blocks are not empty, and neighbouring ones have different types. *)
Fixpoint merged (cells : list (str * list (list nat))) : Prop :=
  match cells with
  | [] => True
  | (t, rows) :: r => rows <> [] /\ match r with [] => True | (t', _) :: _ => t <> t' end /\ merged r
  end.

(** The name of material [m] in dimension [d]: one the field data give, otherwise
    None for 0 and the number for others. *)
Definition named (fd : list (str * (Z * Z))) (m d : Z) (name : str) : Prop :=
  In (name, (m, d)) fd \/
  (forall other, ~ In (other, (m, d)) fd) /\ name = (if Z.eqb m 0 then $"None" else print_Z m).

(** Three binary64 coordinates. *)
Definition in_space (p : list flt) : Prop := List.length p = 3 /\ Forall (fun x => is_f64 x = true) p.
(** The nodes of the cells are among the first [n] points. *)
Definition valid (n : nat) (l : list (str * list nat)) : Prop := Forall (fun a => Forall (fun v => v < n) (snd a)) l.
(** The cells of a mesh are solids [zs] and then surfaces [fs]: the dimensions of
    the cells, and the pairs of a material and a dimension in use. *)
Definition dimensions {A} (zs fs : list A) : list Z := repeat 3%Z (List.length zs) ++ repeat 2%Z (List.length fs).
Definition used {A} (zs fs : list A) (mats : list Z) (m d : Z) : Prop := In (m, d) (combine mats (dimensions zs fs)).
(** No two groups of cells have the same name. *)
Definition unambiguous {A} (fd : list (str * (Z * Z))) (zs fs : list A) (mats : list Z) : Prop :=
  forall m d m' d' name, used zs fs mats m d -> used zs fs mats m' d' -> named fd m d name -> named fd m' d' name -> m = m' /\ d = d'.
(** Names fit for the text format: no blanks, no quotes. *)
Definition plain (name : str) : Prop := forall c, In c name -> is_space c = false /\ c <> """"%char.
Definition plain_names {A} (fd : list (str * (Z * Z))) (zs fs : list A) (mats : list Z) : Prop :=
  forall m d name, used zs fs mats m d -> named fd m d name -> plain name.
Definition without_newline (s : str) : Prop := ~ In nl s.
