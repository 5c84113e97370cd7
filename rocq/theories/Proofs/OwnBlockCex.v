(** Texts that differ before the first place where the keyword stands. *)
From Coq Require Import String Ascii Arith Bool Lia List.
From Verif Require Import Base.Str Model.Py Spec.OwnBlock.
Import ListNotations.

Definition kw_at (kw t : str) (i : nat) : bool := if list_eq_dec ascii_dec (firstn (length kw) (skipn i t)) kw then true else false.
Lemma kw_at_app kw a r : kw_at kw (a ++ kw ++ r) (length a) = true.
Proof.
  unfold kw_at. rewrite skipn_app, skipn_all, Nat.sub_diag. cbn [app skipn]. rewrite firstn_app, firstn_all, Nat.sub_diag. cbn [firstn]. rewrite app_nil_r.
  destruct (list_eq_dec ascii_dec kw kw); [reflexivity|congruence].
Qed.
Lemma not_differ_in kw t t' p : firstn p t <> firstn p t' -> forallb (fun i => negb (kw_at kw t i) && negb (kw_at kw t' i)) (seq 0 p) = true -> ~ differ_in kw t t'.
Proof.
  intros D F (a & c & c' & b & E & E' & C & C'). destruct (le_lt_dec p (length a)) as [L|L].
  - apply D. rewrite E, E'. rewrite !(firstn_app p a). replace (p - length a) with 0 by lia. reflexivity.
  - rewrite forallb_forall in F. specialize (F (length a)). rewrite in_seq in F. specialize (F ltac:(lia)). apply andb_true_iff in F as [F F'].
    destruct C as [->|(r & ->)].
    + destruct C' as [->|(r' & ->)]; [apply D; now rewrite E, E'|].
      rewrite E', <- app_assoc, kw_at_app in F'. discriminate F'.
    + rewrite E, <- app_assoc, kw_at_app in F. discriminate F.
Qed.
