(** What reading the MESH file of a mesh gives. *)
From Coq Require Import String Ascii Arith ZArith Bool List.
From Verif Require Import Base.Str Base.Digits Base.Flt Base.FltText Model.Py Model.MeshFile Spec.Fields Spec.Rocks Spec.Labels Spec.MeshFile.
Import ListNotations.

(** ** Materials *)
(** Names are trimmed and filled with blanks to five characters. *)
Definition five (m : mat) : mat := match m with MName s => MName (ljust 5 (strip s)) | MNum z => MNum z end.
(** The material [t] in the file of a cell of material [m]: the new name, if any. *)
Definition called (names : list (mat * mat)) (m t : mat) : Prop :=
  In (five m, t) names \/ (~ In (five m) (map fst names) /\ t = five m).
(** A name of at most five characters, not only digits, blanks at its end only; a
    number of at most five digits. *)
Definition mat_fits (t : mat) : bool :=
  match t with
  | MName s => name_ok 5 (strip s) && negb (forallb is_digit (strip s)) && streqb s (ljust (List.length s) (strip s))
  | MNum z => (0 <=? z)%Z && (z <? 100000)%Z
  end.
Definition mat_back (t : mat) : pyval := match t with MName s => PStr (strip s) | MNum z => PInt z end.

(** ** Cells and interfaces whose numbers fit their columns *)
Definition cell_fits (n : nat) (coord : bool) (c : mcell) : bool :=
  label_ok (mc_label c) && negb (startswith $"+++" (mc_label c)) && Nat.eqb (List.length (mc_label c)) n && sci_fits 10 4 (file_volume (mc_fixed c) (mc_vol c)) &&
  forallb (sci_fits 10 3) [mc_x c; mc_y c; mc_z c] && (negb coord || forallb (sci_fits 20 13) [mc_x c; mc_y c; mc_z c]).
Definition measures_fit (m : measures) : bool :=
  (1 <=? me_isot m)%Z && (me_isot m <=? 3)%Z && forallb (sci_fits 10 4) [me_d1 m; me_d2 m; me_area m] && sci_fits 10 3 (me_angle m).
(** The reader can see where this label ends. *)
Definition plain_label (s : str) : bool :=
  forallb is_digit (skipn 5 s) && match s with c :: _ => negb (is_digit c) | [] => false end.
(** The length is given to the reader or can be seen. *)
Definition length_told (ll : option Z) (n : nat) (labels : list str) : Prop :=
  ll = Some (Z.of_nat n) \/ (ll = None /\ Forall (fun s => plain_label s = true) labels).

(** ** What is read *)
Definition e_value (k : nat) (x : flt) : pyval := PFloat (rnd_e k x).
Definition cell_read (coord : bool) (m : mat) (c : mcell) : dict :=
  [(#"material", mat_back m); (#"volume", e_value 4 (file_volume (mc_fixed c) (mc_vol c)));
   (#"center", PSeq SList (map (e_value (if coord then 13 else 3)) [mc_x c; mc_y c; mc_z c]))].
Definition measures_read (m : measures) : dict :=
  [(#"nadd", PSeq SList [PNone; PNone]); (#"permeability_direction", PInt (me_isot m));
   (#"nodal_distances", PSeq SList [e_value 4 (me_d1 m); e_value 4 (me_d2 m)]);
   (#"interface_area", e_value 4 (me_area m)); (#"gravity_cosine_angle", e_value 3 (me_angle m))].
(** [order] is the cells in the order of the file, each with its material; [pairs]
    the interfaces, each with the labels of its cells. *)
Definition mesh_read (coord : bool) (order : list (mcell * mat)) (pairs : list (str * str * measures)) : dict :=
  [(#"elements", PDict (map (fun c => (KS (mc_label (fst c)), PDict (cell_read coord (snd c) (fst c)))) order));
   (#"elements_order", PSeq SList (map (fun c => PStr (mc_label (fst c))) order));
   (#"coordinates", PBool coord);
   (#"connections", PDict (map (fun p => (KS (fst (fst p) ++ snd (fst p)), PDict (measures_read (snd p)))) pairs));
   (#"connections_order", PSeq SList (map (fun p => PStr (fst (fst p) ++ snd (fst p))) pairs))].
