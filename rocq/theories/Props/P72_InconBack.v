(** C72: reading back the INCON file of a mesh. *)
From Coq Require Import String Ascii Arith ZArith QArith Bool Lia List.
From Verif Require Import Base.Str Base.Digits Base.Flt Base.FltText Base.FltRound Model.Py Model.MeshFile Model.Read Spec.Labels Spec.MeshBack Spec.InconBack Proofs.InconBackProof.
Import ListNotations.
Local Open Scope nat_scope.

(** C72.  Labels of 5 to 9 characters, numbers that fit, the same number of values
    in each cell, at most eight, and with more than four one defined after the
    fourth: the INCON file of a mesh, read back, has exactly the cells where
    something is defined, in the order of the mesh, each with its values, those
    undefined left out or None, its porosity and its three user numbers. *)
Theorem C72_incon : forall n k cs, 5 <= n <= 9 -> cs <> [] ->
  (forall c, In c cs -> condition_fits n k c = true /\ not_all_negative c /\ (has_conditions c = true -> long_filled k c = true)) ->
  NoDup (map ic_label cs) -> exists text, write_incon cs = Ok text /\
    forall ll fuel, length_told ll n (map ic_label cs) -> read_text fuel ll text = Ok (conditions_read (filter has_conditions cs)).
Proof. exact incon_back. Qed.
Print Assumptions C72_incon.

(** Three cells, one with nothing defined, one with a porosity and user numbers. *)
Definition third : flt := flt_of_dec false 333333333333 (-12).
Definition unset : flt := flt_of_Z (-1000000000).
Definition three_conditions : list icell :=
  [ICell $"A1100" [flt_of_Z 100000; third; unset; flt_of_Z 20; unset; flt_of_Z (-3)] (Some third) (Some [third; third; flt_of_Z 2]);
   ICell $"A1101" [unset; unset; unset; unset; unset; unset] None None;
   ICell $"A1102" [unset; flt_of_Z 4; third; third; third; unset] None None].
Example C72_case : forallb (fun c => condition_fits 5 6 c && (negb (has_conditions c) || long_filled 6 c)) three_conditions = true /\
  Forall not_all_negative three_conditions /\ length_told None 5 (map ic_label three_conditions) /\ NoDup (map ic_label three_conditions) /\
  exists text, write_incon three_conditions = Ok text /\ read_text 0 None text =
    Ok [(#"initial_conditions",
         PDict [(KS $"A1100", PDict [(#"porosity", e_value 9 third); (#"userx", PSeq SList [e_value 3 third; e_value 3 third; e_value 3 (flt_of_Z 2)]);
                   (#"values", PSeq SList [e_value 13 (flt_of_Z 100000); e_value 13 third; PNone; e_value 13 (flt_of_Z 20); PNone; e_value 13 (flt_of_Z (-3))])]);
                (KS $"A1102", PDict [(#"values", PSeq SList [PNone; e_value 13 (flt_of_Z 4); e_value 13 third; e_value 13 third; e_value 13 third])])]);
        (#"initial_conditions_order", PSeq SList [PStr $"A1100"; PStr $"A1102"])].
Proof.
  split; [vm_compute; reflexivity|]. split; [|split; [|split]].
  - apply Forall_cons; [|apply Forall_cons; [|apply Forall_cons; [|apply Forall_nil]]]; intros X.
    + exists third. split; [right; left; reflexivity|]. apply Qle_bool_iff. vm_compute. reflexivity.
    + vm_compute in X. discriminate X.
    + exists third. split; [right; right; left; reflexivity|]. apply Qle_bool_iff. vm_compute. reflexivity.
  - right. split; [reflexivity|]. repeat constructor.
  - repeat constructor; cbn; intuition discriminate.
  - eexists. split; [vm_compute; reflexivity|]. vm_compute. reflexivity.
Qed.

(** C72 fails with more than four values, all those after the fourth undefined in
    a cell: its third record is blank, reading stops there, and the following
    cells are lost without notice. *)
Theorem C72_blank_refuted : exists c1 c2 text els d, condition_fits 5 5 c1 = true /\ condition_fits 5 5 c2 = true /\ not_all_negative c1 /\ not_all_negative c2 /\
  has_conditions c1 = true /\ has_conditions c2 = true /\ ic_label c1 <> ic_label c2 /\ write_incon [c1; c2] = Ok text /\ read_text 0 None text = Ok els /\
  dget #"initial_conditions" els = Some (PDict d) /\ dget (KS (ic_label c1)) d <> None /\ dget (KS (ic_label c2)) d = None.
Proof.
  exists (ICell $"A1100" [third; third; third; third; unset] None None), (ICell $"A1101" [third; third; third; third; third] None None). do 3 eexists.
  split; [vm_compute; reflexivity|]. split; [vm_compute; reflexivity|].
  split; [intros _; exists third; split; [left; reflexivity|apply Qle_bool_iff; vm_compute; reflexivity]|]. split; [intros _; exists third; split; [left; reflexivity|apply Qle_bool_iff; vm_compute; reflexivity]|].
  split; [vm_compute; reflexivity|]. split; [vm_compute; reflexivity|]. split; [discriminate|]. split; [vm_compute; reflexivity|]. split; [vm_compute; reflexivity|].
  split; [reflexivity|]. split; [discriminate|reflexivity].
Qed.
Print Assumptions C72_blank_refuted.
(** C72 fails for more than eight values: those after the eighth are not written. *)
Theorem C72_many_refuted : exists c text els d e, condition_fits 5 9 c = true /\ not_all_negative c /\ write_incon [c] = Ok text /\ read_text 0 None text = Ok els /\
  dget #"initial_conditions" els = Some (PDict d) /\ dget (KS (ic_label c)) d = Some (PDict e) /\ dget #"values" e = Some (PSeq SList (map (e_value 13) (firstn 8 (ic_values c)))).
Proof.
  exists (ICell $"A1100" [third; third; third; third; third; third; third; third; third] None None). do 4 eexists. split; [vm_compute; reflexivity|].
  split; [intros _; exists third; split; [left; reflexivity|apply Qle_bool_iff; vm_compute; reflexivity]|]. split; [vm_compute; reflexivity|]. split; [vm_compute; reflexivity|]. split; [reflexivity|]. split; [reflexivity|]. vm_compute; reflexivity.
Qed.
Print Assumptions C72_many_refuted.
