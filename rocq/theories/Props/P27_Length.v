(** C27: inference of the label length. *)
From Coq Require Import String Ascii ZArith Bool Lia List.
From Verif Require Import Base.Str Base.Digits Model.Py Model.Records Model.Read Spec.Length Proofs.LengthProof Proofs.Samples.
Import ListNotations.

(** C27.  A label of 5 to 9 characters with digits from the sixth on, followed
    by no digit, has its length found. *)
Theorem C27_length : forall label rest, 5 <= List.length label <= 9 ->
  forallb is_digit (skipn 5 label) = true -> (List.length label < 9 -> forall c r, rest = c :: r -> is_digit c = false) ->
  get_label_length (firstn 9 (label ++ rest)) = List.length label.
Proof. exact length_of_label. Qed.
Print Assumptions C27_length.

(** C27.  What is found in any line: [found line n] says that the characters 6
    to n are digits and that n is 9 or the next is none. *)
Theorem C27_exact : forall line n, get_label_length (firstn 9 line) = n <-> found line n.
Proof. exact length_found. Qed.
Print Assumptions C27_exact.

Example C27_example :
  get_label_length (firstn 9 ($"AAA10     SAND")) = 5 /\ get_label_length (firstn 9 ($"ABC123456SAND")) = 9 /\
  get_label_length (firstn 9 ($"ABC1234")) = 7.
Proof. parts; byc. Qed.

(** C27.  Findings: a digit after the label, or a letter after its fifth
    character, misleads the guess. *)
Theorem C27_refuted :
  get_label_length (firstn 9 ($"AAA10" ++ $"12   SAND")) <> List.length ($"AAA10") /\
  get_label_length (firstn 9 ($"AAA1B2" ++ $"   SAND")) = List.length ($"AAA1B2") /\
  get_label_length (firstn 9 ($"AAAABC" ++ $"   SAND")) <> List.length ($"AAAABC").
Proof. parts; try byc; intros X; vm_compute in X; discriminate X. Qed.
Print Assumptions C27_refuted.
