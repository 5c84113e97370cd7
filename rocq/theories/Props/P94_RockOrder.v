(** C94: the order of the rocks does not matter when rocks_order names them all. *)
From Coq Require Import String Ascii ZArith Bool Lia Permutation List.
From Verif Require Import Base.Str Base.Digits Base.Flt.
From Verif Require Import Model.Py Model.Records Model.Write.
From Verif Require Import Proofs.DictLemmas Proofs.RockOrderProof Spec.RockOrder.
Import ListNotations.
Local Open Scope Z_scope.

(** C94.  With a list rocks_order that names every rock, the rocks may be listed in any order in their dictionary: the same file is written, and one is written in
    the one case if and only if it is in the other. *)
Theorem C94_order : forall u u' blk t, rocks_reordered u u' -> (write_text u blk = Ok t <-> write_text u' blk = Ok t).
Proof. exact rocks_same. Qed.
Print Assumptions C94_order.

Definition C94_num (m e : Z) : pyval := PFloat (flt_of_dec false m e).
Definition C94_names (l : list str) : pyval := PSeq SList (map PStr l).
Definition C94_sand : key * pyval := (#"SAND", PDict [(#"density", C94_num 2600 0); (#"porosity", C94_num 3 (-1)); (#"initial_condition", PSeq SList [C94_num 1 5])]).
Definition C94_clay : key * pyval := (#"CLAY", PDict [(#"density", C94_num 2500 0); (#"tortuosity", C94_num 1 (-1))]).
Definition C94_rock : key * pyval := (#"ROCK", PDict [(#"specific_heat", C94_num 900 0)]).
Definition C94_with (d : dict) : dict :=
  [(#"title", PStr ($"Sample")); (#"flac", PDict [(#"creep", PBool true)]); (#"rocks", PDict d); (#"rocks_order", C94_names [$"ROCK"; $"SAND"; $"CLAY"]); (#"start", PBool false)].
Definition C94_first : dict := C94_with [C94_sand; C94_clay; C94_rock].
Definition C94_second : dict := C94_with [C94_clay; C94_sand; C94_rock].
Example C94_example : rocks_reordered C94_first C94_second /\ C94_first <> C94_second /\
  match write_text C94_first ($"all") with Ok t => Nat.ltb 1000 (List.length t) | Err _ => false end = true /\ write_text C94_first ($"all") = write_text C94_second ($"all").
Proof.
  assert (U : forall d, no_dup_keys (dkeys d) = true -> NoDup (dkeys d)) by (intros d; apply no_dup_keys_ok).
  split; [|split; [discriminate|split; vm_compute; reflexivity]].
  exists [(#"title", PStr ($"Sample")); (#"flac", PDict [(#"creep", PBool true)])], [(#"rocks_order", C94_names [$"ROCK"; $"SAND"; $"CLAY"]); (#"start", PBool false)], [C94_sand; C94_clay; C94_rock], [C94_clay; C94_sand; C94_rock],
    [PStr ($"ROCK"); PStr ($"SAND"); PStr ($"CLAY")].
  split; [reflexivity|]. split; [reflexivity|]. split; [apply U; vm_compute; reflexivity|]. split; [apply U; vm_compute; reflexivity|]. split; [apply perm_swap|].
  split; [repeat (apply Forall_cons; [eexists; split; [reflexivity|vm_compute; exact I]|]); apply Forall_nil|]. split; [reflexivity|].
  intros k [<-|[<-|[<-|[]]]]; eexists; (split; [reflexivity|]); [right; left|right; right; left|left]; reflexivity.
Qed.

(** C94.  Findings: rocks that rocks_order does not name follow in the order of the dictionary, and a tuple that does not name them all raises AttributeError; with
    a wrong initial condition beside a right one, whether the mesh alone is written depends on which rock comes first. *)
Theorem C94_refuted :
  let file := fun d o blk => write_text [(#"title", PStr ($"Sample")); (#"rocks", PDict d); (#"rocks_order", o)] blk in
  let bad := (#"BADD", PDict [(#"initial_condition", PInt 5)]) in
  let all := C94_names [$"SAND"; $"BADD"] in
  (exists t t', file [C94_sand; C94_clay; C94_rock] (C94_names [$"SAND"]) ($"all") = Ok t /\ file [C94_sand; C94_rock; C94_clay] (C94_names [$"SAND"]) ($"all") = Ok t' /\ t <> t') /\
  file [C94_sand; C94_clay] (PSeq STuple [PStr ($"SAND")]) ($"all") = Err AttributeError /\
  (exists t, file [C94_sand; bad] all ($"mesh") = Ok t) /\ file [bad; C94_sand] all ($"mesh") = Err TypeError.
Proof.
  cbv zeta. split; [do 2 eexists; (split; [vm_compute; reflexivity|]; split; [vm_compute; reflexivity|]; discriminate)|]. split; [vm_compute; reflexivity|].
  split; [eexists; vm_compute; reflexivity|vm_compute; reflexivity].
Qed.
Print Assumptions C94_refuted.
