(** What a mesh read from a Tecplot file has of the mesh written. *)
From Coq Require Import String Ascii Arith ZArith Bool List.
From Verif Require Import Base.Str Base.Digits Base.Flt Model.Avsucd Spec.Avsucd.
Import ListNotations.
Local Open Scope nat_scope.

(** The types of the format: nodes, dimension and edges (numbered as in VTK). *)
Record kind := Kind { k_name : string; k_nodes : nat; k_dim : nat; k_edges : list (nat * nat) }.
Definition kinds : list kind :=
  [Kind "triangle" 3 2 [(0, 1); (1, 2); (2, 0)];
   Kind "quad" 4 2 [(0, 1); (1, 2); (2, 3); (3, 0)];
   Kind "tetra" 4 3 [(0, 1); (1, 2); (2, 0); (0, 3); (1, 3); (2, 3)];
   Kind "pyramid" 5 3 [(0, 1); (1, 2); (2, 3); (3, 0); (0, 4); (1, 4); (2, 4); (3, 4)];
   Kind "wedge" 6 3 [(0, 1); (1, 2); (2, 0); (3, 4); (4, 5); (5, 3); (0, 3); (1, 4); (2, 5)];
   Kind "hexahedron" 8 3 [(0, 1); (1, 2); (2, 3); (3, 0); (4, 5); (5, 6); (6, 7); (7, 4); (0, 4); (1, 5); (2, 6); (3, 7)]].
Definition kind_of (t : str) : option kind := find (fun k => streqb $(k_name k) t) kinds.
Definition dims (cells : list (str * list (list nat))) : list nat :=
  flat_map (fun b => match kind_of (fst b) with Some k => [k_dim k] | None => [] end) cells.
(** The blocks written: the solid ones if there are any, else the flat ones. *)
Definition written (cells : list (str * list (list nat))) (b : str * list (list nat)) : bool :=
  match kind_of (fst b) with
  | Some k => (k_dim k =? 3) || negb (existsb (Nat.eqb 3) (dims cells))
  | None => false
  end.
Definition written_cells (cells : list (str * list (list nat))) : list (str * list nat) :=
  flat_map (fun b => map (pair (fst b)) (snd b)) (filter (written cells) cells).
(** The edges of a cell, between different points. *)
Definition edge (t : str) (nodes : list nat) (a b : nat) : Prop :=
  a <> b /\ exists k i j, kind_of t = Some k /\ (In (i, j) (k_edges k) \/ In (j, i) (k_edges k)) /\
    nth_error nodes i = Some a /\ nth_error nodes j = Some b.
Definition same_edges (t' : str) (cell : str * list nat) (nodes' : list nat) : Prop :=
  forall a b, edge (fst cell) (snd cell) a b <-> edge t' nodes' a b.
(** Cells with the nodes of their type. *)
Definition complete (cells : list (str * list (list nat))) : Prop :=
  forall b k, In b cells -> kind_of (fst b) = Some k -> Forall (fun c => List.length c = k_nodes k) (snd b).

(** The types which have a zone of their own. *)
Definition plain_type (t : str) : Prop := exists s, In s ["triangle"; "quad"; "tetra"; "hexahedron"]%string /\ t = $s.

(** The scalar arrays of an array of data; coordinates are not data. *)
Definition coordinate (k : str) : Prop := exists s, In s ["X"; "Y"; "Z"; "x"; "y"; "z"]%string /\ k = $s.
Inductive scalars : str * darray -> list (str * list flt) -> Prop :=
| sc_axis k d : coordinate k -> scalars (k, d) []
| sc_ints k l : ~ coordinate k -> scalars (k, Ints l) [(k, map flt_of_Z l)]
| sc_floats k l : ~ coordinate k -> scalars (k, Floats l) [(k, l)]
| sc_rows k w l cs : ~ coordinate k -> List.length cs = w ->
    (forall i c, nth_error cs i = Some c -> fst c = k ++ $"_" ++ print_Z (Z.of_nat i) /\ Forall2 (fun r x => nth_error r i = Some x) l (snd c)) ->
    scalars (k, Rows w l) cs.
Definition entries (d : darray) : nat := match d with Ints l => List.length l | Floats l => List.length l | Rows _ l => List.length l end.
Definition floats (e : str * list flt) : str * darray := (fst e, Floats (snd e)).
(** The data of the cells written. *)
Definition chosen_of {A} (cells : list (str * list (list nat))) (l : list A) : list A :=
  map snd (filter fst (combine (flat_map (fun b => repeat (written cells b) (List.length (snd b))) cells) l)).
Definition restricted (cells : list (str * list (list nat))) (e : str * darray) : str * darray :=
  (fst e, match snd e with
          | Ints l => Ints (chosen_of cells l)
          | Floats l => Floats (chosen_of cells l)
          | Rows w l => Rows w (chosen_of cells l)
          end).
(** At most one array has a name for materials; it is renamed. *)
Inductive renamed : list (str * darray) -> list (str * darray) -> Prop :=
| rn_none l : (forall e, In e l -> ~ names_material (fst e)) -> renamed l l
| rn_one a k d b : (forall e, In e (a ++ b) -> ~ names_material (fst e)) ->
    names_material k ->
    renamed (a ++ (k, d) :: b) (a ++ b ++ [($"material", d)]).
(** Names which can be written, and numbers which start with a digit. *)
Definition readable (k : str) : Prop :=
  k <> [] /\ forall c, In c k -> is_space c = false /\ c <> ","%char /\ c <> "="%char /\ c <> """"%char.
Definition digit_first (print : flt -> str) : Prop := forall m e, is_f64 (Fin false m e) = true ->
  exists c s, print (Fin false m e) = c :: s /\ is_digit c = true.
Definition not_negative (x : flt) : Prop := exists m e, x = Fin false m e.
