(** Conversion to and from meshes of meshio, /repo/toughio/_mesh/_mesh.py:247-281,
    838-904.  Sets of points and of cells are not modelled. *)
From Coq Require Import String Ascii Arith ZArith Bool List.
From Verif Require Import Base.Str Model.Py Model.Numpy Model.Mesh Model.MeshOps Model.Pyvista.
From Verif Require Model.Avsucd.
Import ListNotations.
Local Open Scope nat_scope.

(** meshio.Mesh: since version 4 blocks of cells and for each name one array per
    block; before, cells and data by type, _mesh.py:262-280, 864-871 *)
Inductive layout (V : Type) :=
| Blocks (b : list cellblock) (d : list (str * list (list V)))
| Types (c : list (str * list (list nat))) (d : list (str * list (str * list V))).
Arguments Blocks {V}. Arguments Types {V}.
Record mio (C V : Type) := Mio {   (* _mesh.py:257-281 *)
  mi_points : list (list C);
  mi_cells : layout V;
  mi_point_data : list (str * list V);
  mi_field_data : list (str * (Z * Z))
}.
Arguments Mio {C V}. Arguments mi_points {C V}. Arguments mi_cells {C V}. Arguments mi_point_data {C V}. Arguments mi_field_data {C V}.

(** to_meshio, _mesh.py:247-281; [new] for version 4 or later *)
Definition to_meshio {C V} (new : bool) (m : mesh C V) : res (mio C V) :=
  let* data := mapM (fun kv => let* ps := split (cells m) (snd kv) in Ok (fst kv, ps)) (cell_data m) in
  let* l := (if new then Ok (Blocks (cells m) data) else let* cd := get_old_meshio_cells (cells m) data in Ok (Types (fst cd) (snd cd))) in
  Ok (Mio (points m) l (point_data m) (field_data m)).

(** get_material_key, _helpers.py:55-60 *)
Definition material_key {B} (d : list (str * B)) : option str :=
  match filter (fun kv => Avsucd.is_material (fst kv)) d with kv :: _ => Some (fst kv) | [] => None end.
(** cell_data["material"] = cell_data.pop(key), _mesh.py:871-873 *)
Definition pop {B} (k : str) (d : list (str * B)) : list (str * B) := filter (fun kv => negb (streqb k (fst kv))) d.
Definition material_renamed {B} (d : list (str * B)) : res (list (str * B)) :=   (* _mesh.py:871-873 *)
  match material_key d with
  | Some k => let* v := assoc k d in Ok (put $"material" v (pop k d))
  | None => Ok d
  end.
(** The number of the default material, _mesh.py:896-900; the maximum of nothing is a
    ValueError *)
Definition default_number (f : list (str * (Z * Z))) : res Z :=
  match f with
  | [] => Ok 1%Z
  | _ => match map (fun kv => fst (snd kv)) (filter (fun kv => Z.eqb (snd (snd kv)) 3) f) with
         | [] => Err ValueError
         | x :: r => Ok (fold_left Z.max r x + 1)%Z
         end
  end.
(** from_meshio, _mesh.py:838-904, with the argument as the call leaves it: its
    dictionaries are shared with the result.  [dim] is the number of coordinates. *)
Definition from_meshio {C V} (num : Z -> V) (material : str) (dim : nat) (io : mio C V) : res (mesh C V * mio C V) :=
  let* (bdl : list cellblock * list (str * list V) * layout V) :=
    (match mi_cells io with
     | Blocks b [] => Ok (b, [], Blocks b [])
     | Types c [] => Ok (c, [], Types c [])
     | Blocks b d =>
         let* d := material_renamed d in
         let* _ := guard (forallb (fun kv => match snd kv with [] => false | _ => true end) d) ValueError in
         Ok (b, map (fun kv => (fst kv, concat (snd kv))) d, Blocks b d)
     | Types c d =>
         let* bd := get_new_meshio_cells c d in
         let* d' := material_renamed (snd bd) in
         let* _ := guard (forallb (fun kv => match snd kv with [] => false | _ => true end) d') ValueError in
         Ok (fst bd, map (fun kv => (fst kv, concat (snd kv))) d', Types c d)
     end) in
  let '(blocks, data, kept) := bdl in
  if has_key $"material" data then Ok (Mesh dim (mi_points io) blocks (mi_point_data io) data (mi_field_data io), Mio (mi_points io) kept (mi_point_data io) (mi_field_data io))
  else
    let* imat := default_number (mi_field_data io) in
    let field := put material (imat, 3%Z) (mi_field_data io) in
    Ok (Mesh dim (mi_points io) blocks (mi_point_data io) (data ++ [($"material", repeat (num imat) (n_cells blocks))]) field,
        Mio (mi_points io) kept (mi_point_data io) (match mi_field_data io with [] => [] | _ => field end)).
