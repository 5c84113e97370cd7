(** What a user may expect of one fixed-width column: which values it can hold
    and which value comes back.  Nothing here refers to the reader or writer. *)
From Coq Require Import String Ascii ZArith Bool List.
From Verif Require Import Base.Str Base.Digits Base.Flt Base.FltText Model.Py.
Import ListNotations.
Local Open Scope Z_scope.

(** A column: text, text with outer blanks to be dropped, text with significant
    blanks, integer, scientific with [k] decimals, or fixed point with one
    decimal; [w] is its width. *)
Inductive col :=
| CText (w : nat)
| CLoose (w : nat)
| CRaw (w : nat)
| CInt (w : nat)
| CSci (w k : nat)
| CFix (w : nat).

Definition col_width (c : col) : nat :=
  match c with CText w | CLoose w | CRaw w | CInt w | CSci w _ | CFix w => w end.

(** Text that stays on one line. *)
Definition one_line (s : str) : bool := forallb (fun c => negb (Ascii.eqb c nl)) s.

(** The number behind a value, as an integer or as a float. *)
Definition int_of (v : pyval) : option Z :=
  match v with
  | PInt z | PNpInt z => Some z
  | PBool b => Some (if b then 1 else 0)
  | _ => None
  end.
Definition num_of (v : pyval) : option flt :=
  match v with
  | PFloat x => Some x
  | _ => match int_of v with Some z => Some (flt_of_Z z) | None => None end
  end.

(** Absent values: None, or the empty text. *)
Definition absent (v : pyval) : bool :=
  match v with PNone => true | PStr [] => true | _ => false end.

(** A number that a scientific column of width [w] with [k] decimals can hold. *)
Definition sci_fits (w k : nat) (x : flt) : bool :=
  is_f64 x && Nat.leb (List.length (fmt_e k x)) w.

(** Which values a column can hold. *)
Definition col_ok (c : col) (v : pyval) : bool :=
  match c with
  | CText w =>
      absent v || match v with
                  | PStr s => trimmed s && Nat.leb (List.length s) w && one_line s
                  | _ => false
                  end
  | CLoose w =>
      absent v || match v with PStr s => Nat.leb (List.length s) w && one_line s | _ => false end
  | CRaw w => match v with PStr s => Nat.leb (List.length s) w && one_line s && Nat.ltb 0 w | _ => false end
  | CInt w =>
      absent v || match int_of v with
                  | Some z => (Z.abs z <? 1000000) && Nat.leb (List.length (print_Z z)) w
                  | None => false
                  end
  | CSci w k =>
      absent v || match v with
                  | PFloat x => sci_fits w k x
                  | _ => match int_of v with
                         | Some z => is_finite (flt_of_Z z) && sci_fits w k (flt_of_Z z)
                         | None => false
                         end
                  end
  | CFix w =>
      match int_of v with
      | Some z => (Z.abs z <? 10000000) && Nat.leb 10 w
      | None => false
      end
  end.

(** The value that comes back. *)
Definition col_val (c : col) (v : pyval) : pyval :=
  match c with
  | CText _ => if absent v then PNone else v
  | CLoose _ => match v with
                | PStr s => if nonempty (strip s) then PStr (strip s) else PNone
                | _ => PNone
                end
  | CRaw w => match v with PStr s => PStr (ljust w s) | _ => PNone end
  | CInt _ => match int_of v with Some z => PInt z | None => PNone end
  | CSci _ k => match num_of v with Some x => PFloat (rnd_e k x) | None => PNone end
  | CFix _ => match num_of v with Some x => PFloat x | None => PNone end
  end.

(** A record: the values beyond the columns are not written, and columns
    without value come back as None. *)
Fixpoint rec_ok (cs : list col) (vs : list pyval) : bool :=
  match cs, vs with
  | [], _ => true
  | CRaw _ :: _, [] => false
  | CFix _ :: _, [] => false
  | _ :: cs, [] => rec_ok cs []
  | c :: cs, v :: vs => col_ok c v && rec_ok cs vs
  end.
Fixpoint rec_val (cs : list col) (vs : list pyval) : list pyval :=
  match cs, vs with
  | [], _ => []
  | _ :: cs, [] => PNone :: rec_val cs []
  | c :: cs, v :: vs => col_val c v :: rec_val cs vs
  end.

Definition rec_width (cs : list col) : nat := fold_right Nat.add 0%nat (map col_width cs).

(** Values whose printed text is the same after having been read back: numbers
    of at most 14 significant digits and magnitude 10^-99 to 10^99, or not finite. *)
Definition col_stable (c : col) (v : pyval) : bool :=
  match c with
  | CSci _ k =>
      Nat.leb k 13 &&
      match num_of v with Some x => flt_rng x || negb (is_finite x) | None => true end
  | CLoose _ => absent v
  | _ => true
  end.
Fixpoint rec_stable (cs : list col) (vs : list pyval) : bool :=
  match cs, vs with
  | c :: cs, v :: vs => col_stable c v && rec_stable cs vs
  | _, _ => true
  end.
