(** What the user sees of toughio-extract. *)
From Coq Require Import String Ascii ZArith Bool List.
From Verif Require Import Base.Str Base.Digits Base.Flt Base.FltArith Model.Py Model.Output Model.Extract Spec.Output Spec.Values Spec.Mesh Spec.Dispatch.
Import ListNotations.

(** The center of an element of the mesh. *)
Definition center_at (p : dict) (s : str) (c : list flt) : Prop :=
  exists e q x y z, dget (KS s) (entries (val #"elements" p)) = Some (PDict e) /\
    dget #"center" e = Some (PSeq q [PFloat x; PFloat y; PFloat z]) /\ c = [x; y; z].
(** Half the sum of two numbers, as floats. *)
Definition middle (x y m : flt) : Prop := m = fmul (Fin false 1 (-1)) (fadd x y).
(** Where a row of the output is: the center of its element, or the middle
    between the centers of its two elements. *)
Definition place (p : dict) (label : list str) (pt : list flt) : Prop :=
  match label with
  | [a] => center_at p a pt
  | [a; b] => exists x y z x' y' z' u v w, center_at p a [x; y; z] /\ center_at p b [x'; y'; z'] /\
      pt = [u; v; w] /\ middle x x' u /\ middle y y' v /\ middle z z' w
  | _ => False
  end.
(** Element outputs have one name per label, connection outputs two. *)
Definition label_kind (connection : bool) (l : list str) : Prop := List.length l = if connection then 2 else 1.

(** [o'] is [o] with the coordinates of every row. *)
Definition coordinate_names : list str := [$"X"; $"Y"; $"Z"].
Definition with_places (p : dict) (o o' : output) : Prop :=
  o_type o' = o_type o /\ o_format o' = o_format o /\ o_time o' = o_time o /\ o_labels o' = o_labels o /\
  exists xs ys zs, o_data o' = o_data o ++ [($"X", xs); ($"Y", ys); ($"Z", zs)] /\
    forall ls, o_labels o = Some ls ->
      List.length xs = List.length ls /\ List.length ys = List.length ls /\ List.length zs = List.length ls /\
      forall i l, nth_error ls i = Some l ->
        exists x y z, place p l [x; y; z] /\ nth_error xs i = Some x /\ nth_error ys i = Some y /\ nth_error zs i = Some z.

(** The file asked for; without a name, one which says what is in it. *)
Inductive target : option str -> bool -> xformat -> str -> Prop :=
| target_given f c x : target (Some f) c x f
| target_elements_csv x : x <> XTecplot -> target None false x $"OUTPUT_ELEME.csv"
| target_elements_tec : target None false XTecplot $"OUTPUT_ELEME.tec"
| target_flows_csv x : x <> XTecplot -> target None true x $"OUTPUT_CONNE.csv"
| target_flows_tec : target None true XTecplot $"OUTPUT_CONNE.tec".
(** [g] is the file [f] of step number [k]: the number is before the extension. *)
Definition step_file (f : str) (k : nat) (g : str) : Prop :=
  (exists stem ext, has_extension f ext /\ f = stem ++ ext /\ g = stem ++ $"_" ++ print_Z (Z.of_nat k) ++ ext) \/
  ((forall ext, ~ has_extension f ext) /\ g = f ++ $"_" ++ print_Z (Z.of_nat k)).
