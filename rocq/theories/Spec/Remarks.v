(** Input files with remarks between their blocks and text after their end. *)
From Coq Require Import String Ascii ZArith Bool List.
From Verif Require Import Base.Str Model.Py Spec.Fields Spec.Values Spec.Simple Spec.BlockOrder.
Import ListNotations.

(** A line which opens no block. *)
Definition plain_line (l : str) : Prop :=
  (exists b, l = b ++ [nl] /\ ~ In nl b) /\ forall kw, In kw block_names -> startswith kw l = false.

(** A line which does not begin like a number: its first character, or the one after
    a sign, is no digit, point or underscore, nor the first letter of inf or nan. *)
Definition number_start (c : ascii) : bool := is_digit c || existsb (Ascii.eqb c) (list_ascii_of_string "._iInN").
Definition sign_char (c : ascii) : bool := existsb (Ascii.eqb c) (list_ascii_of_string "+-").
Definition word_start (c : ascii) : bool := negb (is_space c) && negb (number_start c).
Definition wordy (l : str) : bool :=
  match l with
  | [] => false
  | c :: r => if sign_char c then match r with [] => false | c' :: _ => word_start c' end else word_start c
  end.
Definition blank_line (l : str) : bool := forallb is_space l.

(** Remarks: lines which open no block, the first of which is blank or no number. *)
Definition remarks (ls : list str) : Prop :=
  Forall plain_line ls /\ match ls with [] => True | l :: _ => blank_line l || wordy l = true end.

(** The file, with remarks after ROCKS and after each block, and text after its end line. *)
Definition remarked (title rocks before : list str) (parts : list ((str * list str) * list str)) (last after : str) : str :=
  concat (title ++ rocks ++ before ++ concat (map (fun b => snd (fst b) ++ snd b) parts) ++ [last]) ++ after.
Definition after_end (after : str) : Prop := match after with [] => True | c :: _ => c = nl end.
