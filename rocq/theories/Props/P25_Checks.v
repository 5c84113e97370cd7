(** C25: wrongly typed parameters are rejected. *)
From Coq Require Import String Ascii ZArith Bool Lia List.
From Verif Require Import Base.Str Base.Digits Base.Flt.
From Verif Require Import Model.Py Model.Records Model.Write Model.Read.
From Verif Require Import Spec.Types Spec.Fields Spec.Values Spec.Checked.
From Verif Require Import Proofs.DictLemmas Proofs.CheckedProof Proofs.Samples.
Import ListNotations.
Local Open Scope Z_scope.

(** C25.  Whatever is written, its parameters had the listed types. *)
Theorem C25_checked : forall u s t, write_text u s = Ok t ->
  exists p, prepare u = Ok p /\ well_typed kinds_PARAMETERS p = true /\
    (s = $"all" -> FILE_checked p) /\ (s = $"gener" -> GENER_checked p) /\
    (s = $"mesh" -> MESH_checked p) /\ (s = $"incon" -> INCON_checked p).
Proof. exact written_checked. Qed.
Print Assumptions C25_checked.

(** C25.  A top-level parameter of a type not listed for it is a TypeError,
    whatever is written. *)
Theorem C25_top : forall u p s k v kd,
  keys_unique u -> keys_unique (entries (val #"default" u)) -> keys_unique (entries (val #"rocks" u)) ->
  prepare u = Ok p -> In s [$"all"; $"gener"; $"mesh"; $"incon"] -> ~ In k [#"title"; #"default"; #"rocks"] ->
  dget k u = Some v -> kind_of k kinds_PARAMETERS = Some kd -> v <> PNone -> of_kind kd v = false ->
  write_text u s = Err TypeError.
Proof. exact wrong_refused. Qed.
Print Assumptions C25_top.

(** C25.  So it is for the parameters of a block, … *)
Theorem C25_block : forall w k t p d, In (w, k, t) single_blocks -> dget k p = Some (PDict d) -> well_typed t d = false ->
  w p = Err TypeError.
Proof. exact single_refused. Qed.
Print Assumptions C25_block.

(** … and for those of one generator, element, connection or initial condition. *)
Theorem C25_named : forall w k t p d, In (w, k, t) named_blocks -> dget k p = Some (PDict d) ->
  Forall (fun kv => exists x, snd kv = PDict x) d -> Exists (fun kv => well_typed t (entries (snd kv)) = false) d ->
  w p = Err TypeError.
Proof. exact named_refused. Qed.
Print Assumptions C25_named.

Definition C25_rock : key * pyval := (#"rocks", PDict [(KS ($"SAND"), PDict [])]).
Definition C25_element (v : pyval) : dict :=
  [C25_rock; (#"elements", PDict [(KS ($"AAA10"), PDict [(#"material", text "SAND"); (#"volume", v); (#"center", plist [num 1 0; num 2 0; num 3 0])]);
                                  (KS ($"AAA11"), PDict [(#"material", text "SAND"); (#"volume", num 1 0); (#"center", plist [num 1 0; num 2 0; num 3 0])])])].
Example C25_example :
  let all := fun u => match write_text u ($"all") with Ok _ => None | Err e => Some e end in
  all (C25_element (num 25 0)) = None /\ all (C25_element PNone) = None /\ all (C25_element (PInt 25)) = None /\
  all (C25_element (text "25")) = Some TypeError /\
  all [C25_rock; (#"element_history", text "AAA10")] = Some TypeError /\
  all [C25_rock; (#"options", PDict [(#"t_max", text "1")])] = Some TypeError /\
  all [(#"rocks", PDict [(KS ($"SAND"), PDict [(#"density", text "1")])])] = Some TypeError.
Proof. cbv zeta; parts; byc. Qed.

(** C25.  Finding: a rock, or defaults, that are not a dictionary fail before
    the checks with another error; the type inside a list is not checked. *)
Theorem C25_refuted :
  let all := fun u => match write_text u ($"all") with Ok _ => None | Err e => Some e end in
  all [(#"rocks", PDict [(KS ($"SAND"), PInt 1)])] <> Some TypeError /\
  all [(#"rocks", PInt 1)] <> Some TypeError /\
  all [C25_rock; (#"default", PInt 1)] <> Some TypeError /\
  all [C25_rock; (#"times", plist [text "1"; text "2"])] <> Some TypeError.
Proof. cbv zeta; parts; intros X; vm_compute in X; discriminate X. Qed.
Print Assumptions C25_refuted.
