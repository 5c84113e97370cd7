(** What the user sees of the ELEME, COORD and CONNE blocks. *)
From Coq Require Import String Ascii ZArith Bool List.
From Verif Require Import Base.Str Base.Digits Base.Flt Model.Py Spec.Fields Spec.Values Spec.Types Spec.Rocks Spec.Layouts Spec.Labels.
Import ListNotations.
Local Open Scope Z_scope.

(** ** Elements *)
Definition elements_of (p : dict) : dict := entries (val #"elements" p).
Definition elements_order_of (p : dict) : list pyval := order_list (val #"elements_order" p) (elements_of p).

(** A rock name, or the number of a rock.  A name made of digits is a number. *)
Definition material_ok (v : pyval) : bool :=
  match v with
  | PStr s => name_ok 5 s && negb (forallb is_digit s)
  | PInt z => (0 <=? z) && (z <? 100000)
  | _ => false
  end.
Definition three (v : pyval) : list pyval := firstn 3 (items v).
Definition center_ok (v : pyval) : bool := Nat.leb 3 (List.length (items v)) && forallb (fits 3) (three v).
Definition element_ok (n : nat) (e : dict) : Prop :=
  keys_unique e /\ well_typed kinds_ELEME e = true /\
  col_ok (CInt (fst (eleme_ints n))) (val #"nseq" e) = true /\
  col_ok (CInt (snd (eleme_ints n))) (val #"nadd" e) = true /\
  material_ok (val #"material" e) = true /\
  forallb (fun k => fits 4 (val k e)) [#"volume"; #"heat_exchange_area"; #"permeability_modifier"] = true /\
  center_ok (val #"center" e) = true.
Definition element_back (e : dict) : dict :=
  known [(#"nseq", col_val (CInt 0) (val #"nseq" e)); (#"nadd", col_val (CInt 0) (val #"nadd" e));
         (#"material", val #"material" e); (#"volume", sci 4 (val #"volume" e));
         (#"heat_exchange_area", sci 4 (val #"heat_exchange_area" e));
         (#"permeability_modifier", sci 4 (val #"permeability_modifier" e));
         (#"center", PSeq SList (map (sci 3) (three (val #"center" e))))].

Definition ELEME_ok (p : dict) : Prop :=
  let d := elements_of p in
  dget #"elements" p = Some (PDict d) /\ dmem #"elements_order" p = true /\ d <> [] /\
  keys_unique d /\ subset_ok (val #"elements_order" p) d /\
  (5 <= label_width d <= 9)%nat /\
  Forall (fun kv => exists s e, kv = (KS s, PDict e) /\ label_ok s = true /\ element_ok (label_width d) e) d.
Definition ELEME_known (ll : option nat) (p : dict) : Prop :=
  let d := elements_of p in
  first_known ll (label_width d) (elements_order_of p)
    (fun x => fills (fst (eleme_ints (label_width d))) (val #"nseq" (rock_named d x))).
Definition elements_back (p : dict) : dict :=
  map (fun x => (name_key x, PDict (element_back (rock_named (elements_of p) x)))) (elements_order_of p).
Definition ELEME_upd (p q : dict) : dict :=
  dset #"coordinates" (PBool false)
    (dupdate q [(#"elements", PDict (elements_back p)); (#"elements_order", PSeq SList (elements_order_of p))]).

(** ** COORD: the centres with more digits *)
Definition coord_ok (v : pyval) : bool :=
  is_seq v && forallb (col_ok (CSci 20 13)) (three v) && existsb (fun x => negb (absent x)) (three v).
Definition COORD_ok (p : dict) : Prop :=
  let d := elements_of p in
  dget #"elements" p = Some (PDict d) /\ dmem #"elements_order" p = true /\
  keys_unique d /\ subset_ok (val #"elements_order" p) d /\
  Forall (fun kv => exists s e, kv = (KS s, PDict e) /\ coord_ok (val #"center" e) = true) d.
(** Three coordinates, None for those not given. *)
Definition coord_back (v : pyval) : pyval :=
  PSeq SList (map (sci 13) (firstn 3 (three v ++ [PNone; PNone; PNone]))).
(** The elements [els] read before, with these centres. *)
Definition with_centers (p : dict) (els : dict) : dict :=
  map (fun kv => (fst kv, PDict (dset #"center" (coord_back (val #"center" (rock_named (elements_of p) (key_val (fst kv)))))
                                  (entries (snd kv))))) els.
(** When COORD is read the same elements have been read. *)
Definition COORD_pre (p q : dict) : Prop :=
  dget #"elements_order" q = Some (PSeq SList (elements_order_of p)) /\
  exists els, dget #"elements" q = Some (PDict els) /\ dkeys els = map name_key (elements_order_of p) /\
    Forall (fun kv => is_dict (snd kv) = true) els.
Definition COORD_upd (p q : dict) : dict :=
  dset #"coordinates" (PBool true)
    (dset #"elements" (PDict (with_centers p (entries (val #"elements" q)))) q).

(** ** Connections *)
Definition connections_of (p : dict) : dict := entries (val #"connections" p).
Definition connections_order_of (p : dict) : list pyval := order_list (val #"connections_order" p) (connections_of p).
Definition two (v : pyval) : list pyval := firstn 2 (items v ++ [PNone; PNone]).
Definition connection_ok (n : nat) (e : dict) : Prop :=
  keys_unique e /\ well_typed kinds_CONNE e = true /\
  col_ok (CInt (fst (conne_ints n))) (val #"nseq" e) = true /\
  forallb (col_ok (CInt (snd (conne_ints n)))) (two (val #"nadd" e)) = true /\
  (is_none (val #"nadd" e) = true \/ (2 <= List.length (items (val #"nadd" e)))%nat) /\
  col_ok (CInt 5) (val #"permeability_direction" e) = true /\
  (2 <= List.length (items (val #"nodal_distances" e)))%nat /\
  forallb (fits 4) (two (val #"nodal_distances" e)) = true /\
  fits 4 (val #"interface_area" e) = true /\
  forallb (fun k => fits 3 (val k e)) [#"gravity_cosine_angle"; #"radiant_emittance_factor"] = true.
Definition connection_back (e : dict) : dict :=
  known [(#"nseq", col_val (CInt 0) (val #"nseq" e));
         (#"nadd", PSeq SList (map (col_val (CInt 0)) (two (val #"nadd" e))));
         (#"permeability_direction", col_val (CInt 0) (val #"permeability_direction" e));
         (#"nodal_distances", PSeq SList (map (sci 4) (two (val #"nodal_distances" e))));
         (#"interface_area", sci 4 (val #"interface_area" e));
         (#"gravity_cosine_angle", sci 3 (val #"gravity_cosine_angle" e));
         (#"radiant_emittance_factor", sci 3 (val #"radiant_emittance_factor" e))].

(** Half the length of the longest pair of labels. *)
Definition half_width (d : dict) : nat := Nat.div (label_width d) 2.
(** A pair of labels read as one text: it must not look like the end of a mesh. *)
Definition pair_ok (n : nat) (s : str) : bool :=
  label_ok s && Nat.leb (List.length s) (2 * n) && negb (startswith ($"+++") s).
Definition CONNE_ok (p : dict) : Prop :=
  let d := connections_of p in
  dget #"connections" p = Some (PDict d) /\ dmem #"connections_order" p = true /\ d <> [] /\
  keys_unique d /\ subset_ok (val #"connections_order" p) d /\
  (5 <= half_width d <= 9)%nat /\
  Forall (fun kv => exists s e, kv = (KS s, PDict e) /\ pair_ok (half_width d) s = true /\ connection_ok (half_width d) e) d.
(** The label length, guessed from the first label of the first pair; the second
    label must not start with a digit. *)
Definition CONNE_known (ll : option nat) (p : dict) : Prop :=
  let n := half_width (connections_of p) in
  match connections_order_of p with
  | [] => True
  | x :: _ => let s := key_text (name_key x) in
      length_known ll n (firstn n s) (match skipn n s with c :: _ => is_digit c | [] => false end)
  end.
Definition connections_back (p : dict) : dict :=
  map (fun x => (name_key x, PDict (connection_back (rock_named (connections_of p) x)))) (connections_order_of p).
Definition CONNE_back (p : dict) : dict :=
  [(#"connections", PDict (connections_back p)); (#"connections_order", PSeq SList (connections_order_of p))].
