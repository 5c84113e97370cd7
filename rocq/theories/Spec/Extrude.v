(** Extruding a plane mesh. *)
From Coq Require Import String Ascii Arith ZArith Bool List.
From Verif Require Import Base.Str.
Import ListNotations.
Local Open Scope nat_scope.

Inductive prism : str -> str -> Prop :=
| over_triangle : prism $"triangle" $"wedge"
| over_quad : prism $"quad" $"hexahedron".
(** The height of layer [l] above [h0]. *)
Definition level {C} (add : C -> C -> C) (h0 : C) (hs : list C) (l : nat) : C := fold_left add (firstn l hs) h0.
(** The point of layer height [h] over the plane point [x y]: the missing
    coordinate is the one of the axis, the coordinate that was there is the last. *)
Definition placed {C} (axis : nat) (x y h : C) : list C :=
  match axis with 0 => [h; y; x] | 1 => [x; h; y] | _ => [x; y; h] end.
(** [out] repeats [l] [n] times. *)
Definition repeats {A} (n : nat) (l out : list A) : Prop :=
  List.length out = n * List.length l /\
  forall i r x, i < n -> nth_error l r = Some x -> nth_error out (i * List.length l + r) = Some x.
(** [out] has, for each of [nh] layers, the prisms over the cells of the block. *)
Definition prisms_over (npts nh : nat) (block out : str * list (list nat)) : Prop :=
  prism (fst block) (fst out) /\
  List.length (snd out) = nh * List.length (snd block) /\
  forall i r c, i < nh -> nth_error (snd block) r = Some c ->
    nth_error (snd out) (i * List.length (snd block) + r) = Some (map (Nat.add (i * npts)) c ++ map (Nat.add ((i + 1) * npts)) c).
(** Meshes of triangles and quads only. *)
Definition plane (cells : list (str * list (list nat))) : Prop := Forall (fun b => fst b = $"triangle" \/ fst b = $"quad") cells.
