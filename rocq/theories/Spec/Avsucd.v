(** What a mesh read from an AVS-UCD file has of the mesh written. *)
From Coq Require Import String Ascii Arith ZArith Bool List.
From Verif Require Import Base.Str Base.Flt Base.FltText Base.FltInt Model.Avsucd.
Import ListNotations.
Local Open Scope nat_scope.

(** The types of the format, and their numbers of nodes. *)
Definition linear : list (string * nat) :=
  [("vertex", 1); ("line", 2); ("triangle", 3); ("quad", 4); ("tetra", 4); ("pyramid", 5); ("wedge", 6); ("hexahedron", 8)]%string.
Definition kept (a b : str * list nat) : Prop :=
  fst b = fst a /\ exists s n, In (s, n) linear /\ fst a = $s /\ n <= List.length (snd a) /\ snd b = firstn n (snd a).
(** A third coordinate is added to points of the plane. *)
Inductive in_3d : list flt -> list flt -> Prop :=
| in_plane x y : in_3d [x; y] [x; y; fzero false]
| in_space x y z : in_3d [x; y; z] [x; y; z].
(** A way to print numbers which reads back as the same number. *)
Definition faithful (print : flt -> str) : Prop := forall x, is_f64 x = true ->
  parse_float (print x) = Some x /\ print x <> [] /\ forall c, In c (print x) -> is_space c = false.
(** Data: 64-bit numbers, integers up to 2^53, rows of the width announced. *)
Definition regular (d : darray) : Prop :=
  match d with
  | Ints l => Forall (fun z => Z.abs z < 2 ^ 53)%Z l
  | Floats l => Forall (fun x => is_f64 x = true) l
  | Rows w l => 0 < w /\ Forall (fun r => List.length r = w /\ Forall (fun x => is_f64 x = true) r) l
  end.
(** Data come back as floats with fifteen digits; one column is a plain array. *)
Definition same_data (d d' : darray) : Prop :=
  match d with
  | Ints l => d' = Floats (map (fun z => rnd_e 14 (flt_of_Z z)) l)
  | Floats l => d' = Floats (map (rnd_e 14) l)
  | Rows w l => if w =? 1 then d' = Floats (map (rnd_e 14) (concat l)) else d' = Rows w (map (map (rnd_e 14)) l)
  end.
Definition underscored (l : str) : str := map (fun c => if Ascii.eqb c sp then "_"%char else c) l.
Definition plain_label (l : str) : Prop := strip l = l /\ ~ In nl l /\ ~ In ","%char l.
Definition same_entry (e e' : str * darray) : Prop := fst e' = underscored (fst e) /\ same_data (snd e) (snd e').
(** The names of arrays of materials. *)
Definition material_names : list string := ["material"; "gmsh:physical"; "medit:ref"; "avsucd:material"; "flac3d:group"]%string.
Definition names_material (k : str) : Prop := exists s, In s material_names /\ k = $s.
Inductive other_data : list (str * darray) -> list (str * darray) -> Prop :=
| od_nil : other_data [] []
| od_material k d l l' : names_material k -> other_data l l' -> other_data ((k, d) :: l) l'
| od_other k d l l' : ~ names_material k -> other_data l l' -> other_data ((k, d) :: l) ((k, d) :: l').
(** The materials: the first array with such a name, numbers truncated; else zeros. *)
Inductive whole_numbers : darray -> list Z -> Prop :=
| wn_ints l : whole_numbers (Ints l) l
| wn_floats l zs : Forall2 (fun x z => int_of_flt x = Some z) l zs -> whole_numbers (Floats l) zs.
Inductive materials_of (n : nat) : list (str * darray) -> list Z -> Prop :=
| mo_none : materials_of n [] (repeat 0%Z n)
| mo_here k d l zs : names_material k -> whole_numbers d zs -> materials_of n ((k, d) :: l) zs
| mo_later k d l zs : ~ names_material k -> materials_of n l zs -> materials_of n ((k, d) :: l) zs.
