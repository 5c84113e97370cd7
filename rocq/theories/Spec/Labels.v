(** Labels of elements and connections, and what the reader needs to know about
    their length. *)
From Coq Require Import String Ascii ZArith Bool List.
From Verif Require Import Base.Str Base.Digits Base.Flt Model.Py Spec.Fields Spec.Values Spec.Types Spec.Rocks.
Import ListNotations.
Local Open Scope Z_scope.

Definition label_ok (s : str) : bool := nonempty s && trimmed s && one_line s.
Definition key_text (k : key) : str := match k with KS s => s | _ => [] end.
(** The longest label decides of the layout. *)
Definition label_width (d : dict) : nat :=
  fold_right Nat.max 0%nat (map (fun k => List.length (key_text k)) (dkeys d)).

(** The entries to write: all, or those of a list of distinct known labels. *)
Definition order_list (o : pyval) (d : dict) : list pyval :=
  match o with PSeq _ l => l | _ => map key_val (dkeys d) end.
Definition subset_ok (o : pyval) (d : dict) : Prop :=
  match o with
  | PNone => True
  | PSeq _ l => NoDup l /\ Forall (fun x => exists s, x = PStr s /\ In (KS s) (dkeys d)) l
  | _ => False
  end.

(** The length [n] of the labels is given to the reader, or it can be guessed
    from the first record: a label of [n] characters with digits from the sixth
    on, not followed by a digit. *)
Definition length_known (ll : option nat) (n : nat) (first : str) (digit_follows : bool) : Prop :=
  ll = Some n \/
  ((ll = None \/ ll = Some 0%nat) /\ List.length first = n /\ forallb is_digit (skipn 5 first) = true /\
   (n < 9 -> digit_follows = false)%nat).
Definition first_known (ll : option nat) (n : nat) (order : list pyval) (digit_follows : pyval -> bool) : Prop :=
  match order with
  | [] => True
  | x :: _ => length_known ll n (key_text (name_key x)) (digit_follows x)
  end.

(** A non-negative integer that fills its column. *)
Definition fills (w : nat) (v : pyval) : bool :=
  match int_of v with
  | Some z => (0 <=? z) && Nat.eqb (List.length (print_Z z)) w
  | None => false
  end.
