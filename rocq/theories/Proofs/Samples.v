(** Short names for concrete values, used by the examples and witnesses. *)
From Coq Require Import String Ascii ZArith Bool List.
From Verif Require Import Base.Str Base.Digits Base.Flt Model.Py Model.Write Model.Read Spec.Values Proofs.DictLemmas.
Import ListNotations.
Local Open Scope Z_scope.

(** [num d e] is the float nearest to d * 10^e. *)
Definition num (d e : Z) : pyval := PFloat (flt_of_dec (d <? 0) (Z.abs d) e).
Definition text (s : string) : pyval := PStr (lit s).
Definition plist (l : list pyval) : pyval := PSeq SList l.

(** Write the parameters, read the text. *)
Definition roundtrip (p : dict) : res dict :=
  let* t := write_text p ($"all") in read_text (List.length t) None t.
Definition roundtrip_get (k : key) (p : dict) : res pyval :=
  let* q := roundtrip p in Ok (val k q).

(** Splitting a conjunction without trying to solve its parts. *)
Ltac parts := repeat match goal with |- _ /\ _ => split end.
Ltac byc := vm_compute; reflexivity.
Ltac distinct := unfold keys_unique; apply no_dup_keys_ok; reflexivity.
(** The list of a [Forall] goal as a literal. *)
Ltac literal := match goal with |- Forall _ ?l => let v := eval vm_compute in l in replace l with v by byc end.
Ltac each := repeat first [apply Forall_nil | apply Forall_cons].
