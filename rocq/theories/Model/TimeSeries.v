(** Time series of data on a mesh, /repo/toughio/_mesh/_helpers.py.  The XDMF file
    itself (meshio) is not modelled: what is handed to its writer, step by step, is. *)
From Coq Require Import String Ascii Arith ZArith Bool List.
From Verif Require Import Base.Str Model.Py Model.Numpy Model.Mesh.
Import ListNotations.
Local Open Scope nat_scope.

(** [x] or the default when it is None or empty, _helpers.py:269-270 *)
Definition or_empty {A} (x : option (list (list A))) (nt : nat) : list (list A) :=
  match x with Some (a :: l) => a :: l | _ => repeat [] nt end.
Definition given {A} (x : option (list A)) : bool := match x with Some (_ :: _) => true | _ => false end.   (* truth of a list, _helpers.py:257-264 *)
Definition size {A} (x : option (list A)) : nat := match x with Some l => List.length l | None => 0 end.   (* len, _helpers.py:260-266 *)
(** write_time_series, _helpers.py:217-299, for meshio 3 and later.  [argsort] is
    numpy.argsort, of which only what its documentation says is used; [of_nat] turns
    a step number into a time. *)
Definition write_time_series {T P V} (argsort : list T -> list nat) (of_nat : nat -> T) (cells : list cellblock)
    (point_data : option (list (list (str * P)))) (cell_data : option (list (list (str * list V)))) (time_steps : option (list T))
    : res (list (T * list (str * P) * list (str * list (list V)))) :=
  let* _ := guard (given point_data || given cell_data) ValueError in
  let nt := if given point_data then size point_data else size cell_data in
  let* _ := guard (negb (given point_data) || (size point_data =? nt)) ValueError in
  let* _ := guard (negb (given cell_data) || (size cell_data =? nt)) ValueError in
  let* _ := guard (match time_steps with Some t => List.length t =? nt | None => true end) ValueError in
  let pd := or_empty point_data nt in
  let cd := or_empty cell_data nt in
  let ts := match time_steps with Some t => t | None => map of_nat (seq 0 nt) end in
  let at_ := cumsum 0 (map (fun c => List.length (snd c)) (removelast cells)) in
  let cd := map (map (fun kv => (fst kv, np_split (snd kv) at_))) cd in
  let idx := argsort ts in
  let* pd := take pd idx in
  let* cd := take cd idx in
  let* ts := take ts idx in
  Ok (combine (combine ts pd) cd).
(** The data of a step as read_time_series returns it: arrays put together again,
    _helpers.py:209-212 *)
Definition read_step {T P V} (s : T * list (str * P) * list (str * list (list V))) : T * list (str * P) * list (str * list V) :=
  (fst s, map (fun kv => (fst kv, concat (snd kv))) (snd s)).
