(** Reading a MESH file as a mesh, /repo/toughio/_mesh/tough/_tough.py. *)
From Coq Require Import String Ascii Arith ZArith Bool List.
From Verif Require Import Base.Str Base.Digits Base.Flt Model.Py Model.Records Model.Read.
Import ListNotations.

(** The keys kept, _tough.py:24-34 *)
Definition mesh_keys : list key :=
  [#"elements"; #"elements_order"; #"coordinates"; #"connections"; #"connections_order"; #"initial_conditions"; #"initial_conditions_order"].
(** read, _tough.py:16-35: what the input reader finds, without the other keys *)
Definition read_mesh (fuel : nat) (label_length : option Z) (text : str) : res dict :=
  let* p := read_text fuel label_length text in
  Ok (filter (fun kv => existsb (key_eqb (fst kv)) mesh_keys) p).
