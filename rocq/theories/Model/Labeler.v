(** labeler, /repo/toughio/_mesh/_common.py:181-222. *)
From Coq Require Import String Ascii ZArith Bool List.
From Verif Require Import Base.Str Base.Digits Model.Py.
Import ListNotations.
Local Open Scope Z_scope.

Definition alpha : str := $"ABCDEFGHIJKLMNOPQRSTUVWXYZ".               (* _common.py:212 *)
Definition nomen : str := $"123456789" ++ alpha.                       (* _common.py:214 *)
(** One element of [numer], _common.py:211-213: a number padded on the left with
    zeros. *)
Definition numer (n : nat) (i : Z) : str :=
  let s := print_Z i in repeat "0"%char (n - List.length s) ++ s.
(** a[i] for an array, _common.py:221 *)
Definition pick (a : str) (i : Z) : res ascii :=
  match nth_error a (Z.to_nat i) with Some c => Ok c | None => Err IndexError end.
(** The label of a cell, _common.py:216-222.  The code works on whole arrays. *)
Definition label_of (n : nat) (i : Z) : res str :=
  let size := Z.of_nat (List.length nomen) in
  let q1 := i / 10 ^ Z.of_nat n in let r1 := i mod 10 ^ Z.of_nat n in
  let q2 := q1 / size in let r2 := q1 mod size in
  let q3 := q2 / size in let r3 := q2 mod size in
  let r4 := q3 mod size in
  let* a := pick alpha r4 in
  let* b := pick nomen r3 in
  let* c := pick nomen r2 in
  Ok (a :: b :: c :: numer n r1).
(** The length chosen when none is given, _common.py:205-206 *)
Definition bins : list Z := map (fun k => 3185000 * 10 ^ k + 1) [0; 1; 2; 3; 4].
Definition auto_length (n_cells : Z) : Z := Z.of_nat (List.length (filter (fun b => b <=? n_cells) bins)) + 5.   (* numpy.digitize, _common.py:205-206 *)
(** labeler, _common.py:181-222: [range(10 ** n)] is a TypeError for n < 0; the
    message logged for long labels is not modelled. *)
Definition labeler (n_cells : Z) (label_length : option Z) : res (list str) :=
  let length := match label_length with
                | Some l => if l =? 0 then auto_length n_cells else l
                | None => auto_length n_cells
                end in
  let n := length - 3 in
  let* _ := guard (0 <=? n) TypeError in
  mapM (label_of (Z.to_nat n)) (map Z.of_nat (seq 0 (Z.to_nat n_cells))).
