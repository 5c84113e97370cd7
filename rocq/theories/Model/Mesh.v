(** The structure of meshes, /repo/toughio/_mesh/_mesh.py, _common.py and
    _properties.py.  Nodes are numbered from 0; negative node numbers (which
    numpy counts from the end) are not modelled. *)
From Coq Require Import String Ascii Arith ZArith Bool List.
From Verif Require Import Base.Str Model.Py Model.Numpy.
Import ListNotations.
Local Open Scope nat_scope.

(** CellBlock: a type and rows of node numbers, _mesh.py:27 *)
Definition cellblock := (str * list (list nat))%type.
Definition n_cells (cells : list cellblock) : nat := list_sum (map (fun c => List.length (snd c)) cells).   (* _mesh.py:738-740 *)

(** split, _mesh.py:226-245 *)
Definition split {V} (cells : list cellblock) (arr : list V) : res (list (list V)) :=
  let* _ := guard (List.length arr =? n_cells cells) ValueError in
  let sizes := cumsum 0 (map (fun c => List.length (snd c)) cells) in
  Ok (np_split arr (removelast sizes)).

(** d[t] appended to, created first when missing: _common.py:121-127 *)
Fixpoint add_to {B} (t : str) (x : B) (d : list (str * list B)) : list (str * list B) :=
  match d with
  | [] => [(t, [x])]
  | (k, l) :: r => if streqb t k then (k, l ++ [x]) :: r else (k, l) :: add_to t x r
  end.
Definition grouped {B} (l : list (str * B)) : list (str * list B) :=   (* _common.py:120-127 *)
  fold_left (fun d tx => add_to (fst tx) (snd tx) d) l [].
Definition old_cells (cells : list cellblock) : list (str * list (list nat)) :=   (* _common.py:128 *)
  map (fun kv => (fst kv, concat (snd kv))) (grouped cells).
(** get_old_meshio_cells, _common.py:101-144; cell data are lists of one array per
    block *)
Definition get_old_meshio_cells {V} (cells : list cellblock) (cell_data : list (str * list (list V))) :
  res (list (str * list (list nat)) * list (str * list (str * list V))) :=
  let blocks := grouped (combine (map fst cells) (seq 0 (List.length cells))) in
  let* data :=
    match cell_data with
    | [] => Ok []
    | _ => mapM (fun tb =>
             let* l := mapM (fun kv => let* vs := take (snd kv) (snd tb) in Ok (fst kv, concat vs)) cell_data in
             Ok (fst tb, l)) blocks
    end in
  Ok (old_cells cells, data).

(** d[k] for a dictionary, _common.py:175 *)
Fixpoint assoc {B} (k : str) (d : list (str * B)) : res B :=
  match d with [] => Err KeyError | (k', x) :: r => if streqb k k' then Ok x else assoc k r end.
(** The order of numpy.unique on names, _common.py:171 *)
Definition char_leb (a b : ascii) : bool := Nat.leb (nat_of_ascii a) (nat_of_ascii b).
Definition str_leb : str -> str -> bool := lexb char_leb.   (* _common.py:171 *)
(** get_new_meshio_cells, _common.py:147-178 *)
Definition get_new_meshio_cells {V} (cells : list (str * list (list nat))) (cell_data : list (str * list (str * list V))) :
  res (list cellblock * list (str * list (list V))) :=
  let labels := unique str_leb (concat (map (fun kv => map fst (snd kv)) cell_data)) in
  let* data := mapM (fun k =>
    let* l := mapM (fun tc => let* d := assoc (fst tc) cell_data in assoc k d) cells in
    Ok (k, l)) labels in
  Ok (cells, data).

(** The faces of each type of cell, triangles first, _properties.py:33-57 *)
Definition face_table (type : str) : option (list (list nat)) :=
  if streqb type $"tetra" then Some [[1; 2; 3]; [0; 3; 2]; [0; 1; 3]; [0; 2; 1]]
  else if streqb type $"pyramid" then Some [[0; 1; 4]; [1; 2; 4]; [2; 3; 4]; [3; 0; 4]; [0; 3; 2; 1]]
  else if streqb type $"wedge" then Some [[0; 2; 1]; [3; 4; 5]; [0; 1; 4; 3]; [1; 2; 5; 4]; [0; 3; 5; 2]]
  else if streqb type $"hexahedron" then
    Some [[0; 3; 2; 1]; [4; 5; 6; 7]; [0; 1; 5; 4]; [1; 2; 6; 5]; [2; 3; 7; 6]; [0; 4; 7; 3]]
  else None.
(** _faces, _properties.py:31-63, with the faces of a cell in one list
    (chain.from_iterable, _properties.py:226) *)
Definition cell_faces (type : str) (cell : list nat) : res (list (list nat)) :=
  match face_table type with None => Err KeyError | Some t => mapM (take cell) t end.
Definition all_cells (cells : list cellblock) : list (str * list nat) :=   (* _properties.py:61-62 *)
  concat (map (fun b => map (fun c => (fst b, c)) (snd b)) cells).
Definition faces (cells : list cellblock) : res (list (list (list nat))) :=   (* _properties.py:31-63 *)
  mapM (fun tc => cell_faces (fst tc) (snd tc)) (all_cells cells).

(** _get_faces, _properties.py:218-238: the faces with their cell and their rank
    in it; those of [n] nodes *)
Definition numbered {A} (l : list A) : list (nat * A) := combine (seq 0 (List.length l)) l.
Definition occurrences (F : list (list (list nat))) : list ((nat * nat) * list nat) :=   (* _properties.py:225-231 *)
  concat (map (fun ic => map (fun jf => ((fst ic, fst jf), snd jf)) (numbered (snd ic))) (numbered F)).
Definition of_kind (n : nat) (occ : list ((nat * nat) * list nat)) : list ((nat * nat) * list nat) :=   (* _properties.py:227-231 *)
  filter (fun o => List.length (snd o) =? n) occ.

(** The cells and ranks of each distinct face, _properties.py:161-174 *)
Definition owners (occ : list ((nat * nat) * list nat)) : list (list (nat * nat)) :=
  let v := map (fun o => isort Nat.leb (snd o)) occ in
  let up := unique (lexb Nat.leb) v in
  let uf := unique_inverse (lexb Nat.leb) v in
  map (fun k => map fst (filter (fun pk => snd pk =? k) (combine (map fst occ) uf))) (seq 0 (List.length up)).
(** out[i, j] = x, _properties.py:181-182 *)
Definition set2 (i j : nat) (x : Z) (out : list (list Z)) : list (list Z) :=
  match nth_error out i with Some row => set_nth i (set_nth j x row) out | None => out end.
Definition connect (out : list (list Z)) (pair : list (nat * nat)) : list (list Z) :=   (* _properties.py:175-182 *)
  match pair with
  | [(i1, j1); (i2, j2)] => set2 i2 j2 (Z.of_nat i1) (set2 i1 j1 (Z.of_nat i2) out)
  | _ => out
  end.
(** _connections, _properties.py:150-184; [dim] is the number of coordinates *)
Definition connections (dim : nat) (cells : list cellblock) : res (list (list Z)) :=
  let* _ := guard (dim =? 3) ValueError in
  let* F := faces cells in
  let occ := occurrences F in
  let conne := owners (of_kind 3 occ) ++ owners (of_kind 4 occ) in
  Ok (fold_left connect conne (repeat (repeat (-1)%Z 6) (n_cells cells))).
