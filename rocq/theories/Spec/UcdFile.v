(** AVS-UCD files as any program may write them. *)
From Coq Require Import String Ascii Arith ZArith Bool Permutation List.
From Verif Require Import Base.Str Base.Digits Base.Flt Base.FltInt Model.Avsucd Spec.Avsucd Spec.Ucd.
Import ListNotations.
Local Open Scope nat_scope.

Definition comment (line : str) : Prop := exists s, strip line = "#"%char :: s.
Definition reals (ws : list str) (xs : list flt) : Prop := Forall2 (fun w x => parse_float w = Some x) ws xs.
Definition counts (ws : list str) (ns : list nat) : Prop := Forall2 (fun w n => parse_int w = Some (Z.of_nat n)) ws ns.

(** A node: its number and its coordinates. *)
Definition node := (Z * list flt)%type.
Definition node_line (n : node) (line : str) : Prop :=
  exists w ws x, split_ws line = w :: ws /\ parse_float w = Some x /\ int_of_flt x = Some (fst n) /\ reals ws (snd n).
(** A cell: its number, its material, its type, and its nodes, by their places in the
    list of the nodes.  In the file: the word of the type, the nodes in the order of the
    format, by their numbers. *)
Record cell := Cell { c_number : Z; c_material : Z; c_type : str; c_nodes : list nat }.
Definition cell_line (nodes : list node) (c : cell) (line : str) : Prop :=
  exists wi wm wt ws vs, split_ws line = wi :: wm :: wt :: ws /\ parse_int wi = Some (c_number c) /\ parse_int wm = Some (c_material c) /\
    in_ucd (c_type c) (c_nodes c) wt vs /\ List.length vs = List.length (c_nodes c) /\
    Forall2 (fun w v => exists n, nth_error nodes v = Some n /\ parse_int w = Some (fst n)) ws vs.
(** An array: its name, its number of columns, a row for each node or each cell. *)
Record array := Array { a_name : str; a_width : nat; a_rows : list (list flt) }.
Definition array_ok (n : nat) (a : array) : Prop :=
  0 < a_width a /\ List.length (a_rows a) = n /\ Forall (fun r => List.length r = a_width a) (a_rows a).
Definition label_line (a : array) (line : str) : Prop :=
  exists name unit, split_on ","%char (strip line) = name :: unit /\ a_name a = underscored (strip name).
(** The line of entity [i]: its number, then its rows of all the arrays. *)
Definition data_line (numbers : list Z) (data : list array) (i : nat) (line : str) : Prop :=
  exists w ws z rows, split_ws line = w :: ws /\ parse_int w = Some z /\ nth_error numbers i = Some z /\
    Forall2 (fun a r => nth_error (a_rows a) i = Some r) data rows /\ reals ws (concat rows).
(** The lines of the entities stand in any order. *)
Definition data_lines (numbers : list Z) (data : list array) (ls : list str) : Prop :=
  exists head labels rows order w ws, ls = head :: labels ++ rows /\ split_ws head = w :: ws /\ counts ws (map a_width data) /\
    Forall2 label_line data labels /\ Permutation order (seq 0 (List.length numbers)) /\ Forall2 (data_line numbers data) order rows.
(** A section is there when the number of the header says so. *)
Definition section (z : Z) (numbers : list Z) (data : list array) (ls : list str) : Prop :=
  z = 0%Z /\ data = [] /\ ls = [] \/ z <> 0%Z /\ data_lines numbers data ls.
Definition ucd_file (nodes : list node) (cells : list cell) (pdata cdata : list array) (file : str) : Prop :=
  exists comments head wn wc wp we ws np ne l1 l2 l3 l4 rest,
    lines file = comments ++ head :: l1 ++ l2 ++ l3 ++ l4 ++ rest /\ Forall comment comments /\ ~ comment head /\
    split_ws head = wn :: wc :: wp :: we :: ws /\ parse_int wn = Some (Z.of_nat (List.length nodes)) /\ parse_int wc = Some (Z.of_nat (List.length cells)) /\
    parse_int wp = Some np /\ parse_int we = Some ne /\
    Forall2 node_line nodes l1 /\ Forall2 (cell_line nodes) cells l2 /\
    section np (map fst nodes) pdata l3 /\ section ne (map c_number cells) cdata l4.
(** The numbers of the nodes and of the cells are distinct, in any order; the points have
    one dimension; the names of the arrays are distinct, and none is one of an array of
    materials. *)
Definition file_ok (nodes : list node) (cells : list cell) (pdata cdata : list array) : Prop :=
  nodes <> [] /\ cells <> [] /\ NoDup (map fst nodes) /\ NoDup (map c_number cells) /\ (exists d, Forall (fun n => List.length (snd n) = d) nodes) /\
  Forall (array_ok (List.length nodes)) pdata /\ Forall (array_ok (List.length cells)) cdata /\
  NoDup (map a_name pdata) /\ NoDup (map a_name cdata) /\ Forall (fun a => ~ names_material (a_name a)) cdata.
Definition data_of (a : array) : str * darray :=
  (a_name a, if a_width a =? 1 then Floats (concat (a_rows a)) else Rows (a_width a) (a_rows a)).
