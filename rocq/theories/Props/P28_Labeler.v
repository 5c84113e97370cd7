(** C28: generated labels. *)
From Coq Require Import String Ascii ZArith Bool Lia List.
From Verif Require Import Base.Str Base.Digits Model.Py Model.Records Model.Labeler Spec.Labeler Proofs.LabelerProof.
Import ListNotations.
Local Open Scope Z_scope.

(** C28.  A length of at least four is respected, and the labels are distinct. *)
Theorem C28_labels : forall n_cells l, 4 <= l -> 0 <= n_cells <= capacity l ->
  exists ls, labeler n_cells (Some l) = Ok ls /\ Z.of_nat (List.length ls) = n_cells /\ NoDup ls /\ Forall (good_label l) ls.
Proof. exact labeler_good. Qed.
Print Assumptions C28_labels.
Example C28_labels_case : labeler 3 (Some 5) = Ok [$"A1100"; $"A1101"; $"A1102"] /\ 0 <= 3 <= capacity 5 /\
  label_of 2 3184999 = Ok $"ZZZ99".
Proof. vm_compute. repeat split; discriminate. Qed.

(** C28.  More cells than labels are refused. *)
Theorem C28_full : forall n_cells l, 4 <= l -> capacity l < n_cells -> labeler n_cells (Some l) = Err IndexError.
Proof. exact labeler_full. Qed.
Print Assumptions C28_full.
Example C28_full_case : capacity 5 = 3185000 /\ label_of 2 3185000 = Err IndexError.
Proof. vm_compute. repeat split. Qed.

(** C28.  Without a length, the shortest from five that holds the mesh is taken. *)
Theorem C28_auto : forall n_cells ll, ll = None \/ ll = Some 0 -> 0 <= n_cells <= capacity 10 ->
  exists l ls, 5 <= l <= 10 /\ (forall l', 5 <= l' < l -> capacity l' < n_cells) /\
    labeler n_cells ll = Ok ls /\ Z.of_nat (List.length ls) = n_cells /\ NoDup ls /\ Forall (good_label l) ls.
Proof. exact labeler_auto. Qed.
Print Assumptions C28_auto.
Theorem C28_auto_full : forall n_cells ll, ll = None \/ ll = Some 0 -> capacity 10 < n_cells -> labeler n_cells ll = Err IndexError.
Proof. exact labeler_auto_over. Qed.
Print Assumptions C28_auto_full.
Example C28_auto_case : labeler 2 None = Ok [$"A1100"; $"A1101"] /\ auto_length 3185000 = 5 /\ auto_length 3185001 = 6 /\
  auto_length 31850001 = 7.
Proof. vm_compute. repeat split. Qed.

(** C28.  At a given length, a cell keeps its label when cells are added. *)
Theorem C28_stable : forall n m l ls ls', l <> 0 -> 0 <= n <= m -> labeler n (Some l) = Ok ls -> labeler m (Some l) = Ok ls' ->
  firstn (Z.to_nat n) ls' = ls.
Proof. exact labeler_prefix. Qed.
Print Assumptions C28_stable.
Example C28_stable_case : exists ls ls', labeler 2 (Some 4) = Ok ls /\ labeler 12 (Some 4) = Ok ls' /\ firstn 2 ls' = ls /\
  nth 11 ls' [] = $"A121".
Proof. do 2 eexists. repeat split; vm_compute; reflexivity. Qed.

(** C28.  A label of 5 to 9 characters followed by anything but a digit is
    recognised by the reader of input files. *)
Theorem C28_recognised : forall l s r, 5 <= l <= 9 -> good_label l s -> (forall c r', r = c :: r' -> is_digit c = false) ->
  Z.of_nat (get_label_length (s ++ r)) = l.
Proof. exact good_label_recognised. Qed.
Print Assumptions C28_recognised.
Example C28_recognised_case : good_label 6 $"A11000" /\ get_label_length $"A11000   " = 6%nat.
Proof.
  split; [|reflexivity]. exists "A"%char, "1"%char, "1"%char, $"000". vm_compute. repeat split.
Qed.

(** C28 fails below four characters: labels of three are asked for, labels of
    four are given, and shorter ones are a TypeError. *)
Theorem C28_short_refuted : ~ (forall l ls, 1 <= l -> labeler 1 (Some l) = Ok ls -> Forall (fun s => Z.of_nat (List.length s) = l) ls).
Proof.
  intros H. specialize (H 3 [$"A110"]). assert (X : 1 <= 3) by lia. specialize (H X). 
  assert (Y : labeler 1 (Some 3) = Ok [$"A110"]) by (vm_compute; reflexivity). specialize (H Y). inversion H as [|a b E F]. vm_compute in E. discriminate.
Qed.
Print Assumptions C28_short_refuted.
Theorem C28_tiny_refuted : labeler 1 (Some 2) = Err TypeError.
Proof. vm_compute. reflexivity. Qed.
Print Assumptions C28_tiny_refuted.

(** C28: without a length, a label depends on the number of cells. *)
Theorem C28_auto_stable_refuted : label_of (Z.to_nat (auto_length 3185000 - 3)) 0 = Ok $"A1100" /\
  label_of (Z.to_nat (auto_length 3185001 - 3)) 0 = Ok $"A11000".
Proof. vm_compute. repeat split. Qed.
Print Assumptions C28_auto_stable_refuted.
