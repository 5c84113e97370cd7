(** C24: a failed write; C26: JSON input files. *)
From Coq Require Import String Ascii ZArith Bool Lia List.
From Verif Require Import Base.Str Base.Digits Base.Flt.
From Verif Require Import Model.Py Model.Records Model.Write Model.Read Model.Json.
From Verif Require Import Spec.Json Proofs.JsonProof Proofs.Samples.
Import ListNotations.
Local Open Scope Z_scope.

(** C24.  If writing a TOUGH input file raises, no file has changed. *)
Theorem C24_untouched : forall f n u s e f', tough_write f n u s = (Err e, f') -> forall m, f' m = f m.
Proof. exact failed_write. Qed.
Print Assumptions C24_untouched.

(** C24.  It raises exactly when the text cannot be produced; otherwise the file
    holds that text and no other file has changed. *)
Theorem C24_raises : forall f n u s e f', tough_write f n u s = (Err e, f') <-> write_text u s = Err e /\ f' = f.
Proof. exact write_raises. Qed.
Print Assumptions C24_raises.
Theorem C24_written : forall f n u s t, write_text u s = Ok t -> exists f', tough_write f n u s = (Ok tt, f') /\
  f' n = Some (Text t) /\ forall m, m <> n -> f' m = f m.
Proof. exact good_write. Qed.
Print Assumptions C24_written.

Definition C24_files : files := put ($"INFILE") (Text ($"old")) (fun _ => None).
Example C24_example :
  let bad := [(#"rocks", PDict [(KS ($"SAND"), PDict [(#"density", PStr ($"1"))])])] in
  let good := [(#"rocks", PDict [(KS ($"SAND"), PDict [])]); (#"title", PStr ($"New"))] in
  fst (tough_write C24_files ($"INFILE") bad ($"all")) = Err TypeError /\
  snd (tough_write C24_files ($"INFILE") bad ($"all")) ($"INFILE") = Some (Text ($"old")) /\
  fst (tough_write C24_files ($"INFILE") good ($"all")) = Ok tt /\
  (match snd (tough_write C24_files ($"INFILE") good ($"all")) ($"INFILE") with
   | Some (Text t) => Some (firstn 3 t) | _ => None end) = Some ($"New").
Proof. cbv zeta; parts; byc. Qed.

(** C24.  Finding: the JSON writer opens the file first, so that parameters
    json cannot write destroy an existing file. *)
Theorem C24_refuted :
  let p := ODict [(OKey #"title", OOther)] in
  fst (json_write C24_files ($"INFILE") p) = Err TypeError /\
  snd (json_write C24_files ($"INFILE") p) ($"INFILE") <> C24_files ($"INFILE").
Proof. cbv zeta; parts; [byc|]. intros X. vm_compute in X. discriminate X. Qed.
Print Assumptions C24_refuted.

(** C26.  Parameters written to a JSON file are read back the same: every name
    in its place, options by their integers, sequences as lists and numpy
    integers as integers. *)
Theorem C26_json : forall f n p, params_ok p -> exists j q f', json_write f n (ODict p) = (Ok tt, f') /\ f' n = Some (Json j) /\
  (forall m, m <> n -> f' m = f m) /\ json_read j = Ok (ODict q) /\ same_params p q.
Proof. exact json_write_ok. Qed.
Print Assumptions C26_json.

Definition C26_params : odict :=
  [(OKey #"title", OStr ($"Sample"));
   (OKey #"rocks", ODict [(OKey (KS ($"SAND")), ODict [(OKey #"density", OInt 2600); (OKey #"permeability", OSeq SArray [ONpInt 1; OFloat (flt_of_Z 2)])])]);
   (OKey #"extra_options", ODict [(OKey (KI 2), OInt 5); (OKey (KI 10), ONpInt 1); (OKey (KI 1), OInt 4)]);
   (OKey #"selections", ODict [(OKey #"integers", ODict [(OKey (KI 16), OInt 1); (OKey (KI 3), OInt 1)]); (OKey #"floats", OSeq STuple [OFloat (flt_of_Z 1)])]);
   (OKey #"times", OSeq STuple [OInt 1; OInt 2])].
Example C26_example_ok : params_ok C26_params.
Proof.
  assert (N : forall s : string, is_name (OKey #s)) by (intros; eexists; reflexivity).
  assert (Z1 : forall z : Z, is_number (OKey (KI z))) by (intros; eexists; reflexivity).
  assert (U : forall l : list okey, (if Nat.eqb (List.length (nodup okey_dec l)) (List.length l) then True else False) -> NoDup l).
  { intros l H. destruct (Nat.eqb_spec (List.length (nodup okey_dec l)) (List.length l)) as [E|]; [|contradiction].
    apply (NoDup_incl_NoDup (l := nodup okey_dec l)); [apply NoDup_nodup|rewrite E; auto|].
    intros x I. exact (proj1 (nodup_In okey_dec l x) I). }
  assert (W : forall s : string, ~ In (OKey #s) numbered_names -> OKey #s <> OKey #"selections" -> forall v, writable v -> param_ok (OKey #s) v).
  { intros s A B v C. split; [contradiction|]. split; [contradiction|auto]. }
  split; [apply U; vm_compute; exact Logic.I|].
  assert (O1 : forall v, options_ok v -> param_ok (OKey #"extra_options") v).
  { intros v H. split; [auto|]. split; [intros X; vm_compute in X; discriminate X|]. intros X. exfalso. apply X. now left. }
  assert (S1 : forall v, selections_ok v -> param_ok (OKey #"selections") v).
  { intros v H. split; [intros [X|[X|[]]]; vm_compute in X; discriminate X|]. split; [auto|]. intros _ X. exfalso. now apply X. }
  assert (D : forall a b : okey, okey_eqb a b = false -> a <> b) by (intros; now apply okey_eqb_neq).
  unfold C26_params. repeat (apply Forall_cons; [cbn [fst snd]; split; [apply N|]|]); [| | | | |apply Forall_nil].
  - apply W; [intros [X|[X|[]]]; vm_compute in X; discriminate X|now apply D|exact Logic.I].
  - apply W; [intros [X|[X|[]]]; vm_compute in X; discriminate X|now apply D|]. cbn [writable all array_item]. split; [apply U; vm_compute; exact Logic.I|].
    split; [|exact Logic.I]. split; [apply N|]. split; [apply U; vm_compute; exact Logic.I|]. auto 10.
  - apply O1. eexists. split; [reflexivity|]. split; [apply U; vm_compute; exact Logic.I|].
    repeat (apply Forall_cons; [cbn [fst snd writable]; auto|]). apply Forall_nil.
  - apply S1. eexists. split; [reflexivity|]. split; [apply U; vm_compute; exact Logic.I|]. split; [now left|].
    apply Forall_cons; [|apply Forall_cons; [|apply Forall_nil]].
    + split; [apply N|]. cbn [fst snd]. split; [intros _|intros X; exfalso; now apply X]. eexists. split; [reflexivity|].
      split; [apply U; vm_compute; exact Logic.I|]. repeat (apply Forall_cons; [cbn [fst snd writable]; auto|]). apply Forall_nil.
    + split; [apply N|]. cbn [fst snd]. split; [intros X; vm_compute in X; discriminate X|intros _]. cbn [writable all]. auto.
  - apply W; [intros [X|[X|[]]]; vm_compute in X; discriminate X|now apply D|]. cbn [writable all]. auto.
Qed.
Example C26_example :
  (let* j := json_tree (ODict C26_params) in let* v := json_read j in
   match v with
   | ODict q => Ok (match oget (OKey #"extra_options") q with
                    | Some (ODict o) => Some (oget (OKey (KI 2)) o, oget (OKey (KI 10)) o, List.length o) | _ => None end,
                    oget (OKey #"times") q)
   | _ => Err TypeError
   end) = Ok (Some (Some (OInt 5), Some (OInt 1), 3%nat), Some (OSeq SList [OInt 1; OInt 2])).
Proof. byc. Qed.

(** C26.  Findings: selections without "integers" (which the TOUGH writer
    accepts) are written but cannot be read; two options whose names are the
    same text, an integer and a string, are merged; an option named None comes
    back as the text null. *)
Theorem C26_refuted :
  (let* j := json_tree (ODict [(OKey #"selections", ODict [(OKey #"floats", OSeq SList [OInt 1])])]) in json_read j) = Err KeyError /\
  (let* j := json_tree (ODict [(OKey #"rocks", ODict [(OKey (KI 1), OInt 1); (OKey (KS ($"1")), OInt 2)])]) in json_read j)
    = Ok (ODict [(OKey #"rocks", ODict [(OKey (KS ($"1")), OInt 2)])]) /\
  (let* j := json_tree (ODict [(OKey #"rocks", ODict [(OKey KNone, OInt 1)])]) in json_read j)
    = Ok (ODict [(OKey #"rocks", ODict [(OKey (KS ($"null")), OInt 1)])]).
Proof. parts; byc. Qed.
Print Assumptions C26_refuted.
