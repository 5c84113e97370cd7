(** C29: choice of the file format. *)
From Coq Require Import String Ascii ZArith Bool Lia List.
From Verif Require Import Base.Str Model.Py Model.Dispatch Spec.Dispatch Proofs.DispatchProof Proofs.Samples.
Import ListNotations.
Local Open Scope Z_scope.

(** C29.  Reading and writing an input file calls the last function registered
    for the format last registered for the extension of the file, whatever its
    case, or for "tough". *)
Theorem C29_read : forall A (hist : list (registration A)) name fmt r f,
  format_for hist name fmt -> last_such (reads fmt) hist r -> r_reader r = Some f ->
  input_reader (registered hist) (PStr name) None = Ok f.
Proof. exact (@input_read_auto). Qed.
Print Assumptions C29_read.
Theorem C29_write : forall A (hist : list (registration A)) name fmt r f d,
  format_for hist name fmt -> last_such (writes fmt) hist r -> r_writer r = Some f ->
  input_writer (registered hist) (PStr name) (PDict d) None = Ok f.
Proof. exact (@input_write_auto). Qed.
Print Assumptions C29_write.

(** C29.  An explicit format overrides the extension. *)
Theorem C29_explicit : forall A (hist : list (registration A)) name fmt d, In fmt [$"tough"; $"json"] ->
  (forall r f, last_such (reads fmt) hist r -> r_reader r = Some f -> input_reader (registered hist) (PStr name) (Some fmt) = Ok f) /\
  (forall r f, last_such (writes fmt) hist r -> r_writer r = Some f ->
     input_writer (registered hist) (PStr name) (PDict d) (Some fmt) = Ok f).
Proof. exact (@input_explicit). Qed.
Print Assumptions C29_explicit.

(** C29.  Any other explicit format is refused for input files, registered or not. *)
Theorem C29_refused : forall A (t : tables A) filename v fmt, ~ In fmt [$"tough"; $"json"] ->
  match filename with PStr _ => True | _ => False end -> match v with PDict _ => True | _ => False end ->
  input_reader t filename (Some fmt) = Err ValueError /\ input_writer t filename v (Some fmt) = Err ValueError.
Proof. exact (@input_refused). Qed.
Print Assumptions C29_refused.

(** C29.  A format without the function wanted is a KeyError. *)
Theorem C29_missing : forall A (hist : list (registration A)) name fmt d, format_for hist name fmt ->
  (Forall (fun r => ~ reads fmt r) hist -> input_reader (registered hist) (PStr name) None = Err KeyError) /\
  (Forall (fun r => ~ writes fmt r) hist -> input_writer (registered hist) (PStr name) (PDict d) None = Err KeyError).
Proof. exact (@input_missing). Qed.
Print Assumptions C29_missing.

(** C29.  Output and mesh files. *)
Theorem C29_output : forall A (hist : list (registration A)) name ext r1 r2 f,
  has_extension name ext -> last_such (lists (lower ext)) hist r1 ->
  last_such (writes (r_fmt r1)) hist r2 -> r_writer r2 = Some f ->
  output_writer (registered hist) (PStr name) None = Ok f /\ mesh_writer (registered hist) (PStr name) None = Ok (Some f).
Proof. exact (@output_auto). Qed.
Print Assumptions C29_output.
Theorem C29_output_explicit : forall A (hist : list (registration A)) name fmt r f,
  fmt <> [] -> last_such (writes fmt) hist r -> r_writer r = Some f ->
  output_writer (registered hist) (PStr name) (Some fmt) = Ok f /\ mesh_writer (registered hist) (PStr name) (Some fmt) = Ok (Some f).
Proof. exact (@output_explicit). Qed.
Print Assumptions C29_output_explicit.
Theorem C29_mesh : forall A (hist : list (registration A)) name ext r1 r2 f,
  has_extension name ext -> last_such (lists (lower ext)) hist r1 ->
  last_such (reads (r_fmt r1)) hist r2 -> r_reader r2 = Some f -> mesh_reader (registered hist) (PStr name) None = Ok (Some f).
Proof. exact (@mesh_auto). Qed.
Print Assumptions C29_mesh.

(** C29.  Letter case of the extension is ignored. *)
Theorem C29_case : forall A (t : tables A) a b x y, has_extension a x -> has_extension b y -> lower x = lower y -> forall f d,
  input_reader t (PStr a) f = input_reader t (PStr b) f /\ input_writer t (PStr a) (PDict d) f = input_writer t (PStr b) (PDict d) f /\
  output_writer t (PStr a) f = output_writer t (PStr b) f /\
  mesh_reader t (PStr a) f = mesh_reader t (PStr b) f /\ mesh_writer t (PStr a) f = mesh_writer t (PStr b) f.
Proof. exact (@case_ignored). Qed.
Print Assumptions C29_case.

(** C29.  Finding: a registered extension with a capital letter is never used. *)
Theorem C29_refuted : forall A (hist : list (registration A)) r name,
  Forall (fun e => existsb is_upper e = true) (r_exts r) ->
  filetype_from_filename name (t_ext (registered (hist ++ [r]))) = filetype_from_filename name (t_ext (registered hist)).
Proof. exact (@capital_never). Qed.
Print Assumptions C29_refuted.

Definition C29_history : list (registration nat) :=
  [{| r_fmt := $"tough"; r_exts := []; r_reader := Some 1%nat; r_writer := Some 2%nat |};
   {| r_fmt := $"json"; r_exts := [$".json"]; r_reader := Some 3%nat; r_writer := Some 4%nat |};
   {| r_fmt := $"mine"; r_exts := [$".jsn"; $".XYZ"]; r_reader := Some 5%nat; r_writer := None |}].
Example C29_example :
  let read := fun n => input_reader (registered C29_history) (PStr n) in
  let write := fun n => input_writer (registered C29_history) (PStr n) (PDict []) in
  read ($"INFILE") None = Ok 1%nat /\ read ($"a.b/INFILE") None = Ok 1%nat /\ read ($"dir/x.JSON") None = Ok 3%nat /\
  read ($".json") None = Ok 1%nat /\ read ($"x.json") (Some ($"tough")) = Ok 1%nat /\ write ($"x.tar.json") None = Ok 4%nat /\
  read ($"x.jSn") None = Ok 5%nat /\ write ($"x.jsn") None = Err KeyError /\ read ($"x") (Some ($"mine")) = Err ValueError /\
  read ($"x.XYZ") None = Ok 1%nat.
Proof. cbv zeta; parts; byc. Qed.
Example C29_example_format : format_for C29_history ($"dir/x.JSON") ($"json").
Proof.
  apply (by_extension C29_history ($"dir/x.JSON") ($".JSON") {| r_fmt := $"json"; r_exts := [$".json"]; r_reader := Some 3%nat; r_writer := Some 4%nat |}).
  - exists ($"dir/"), ($"x"), ($"JSON"). parts; try byc.
    + right. exists ($"dir"). byc.
    + cbn. intros [X|[]]. discriminate X.
    + cbn. intros [X|[X|[X|[X|[]]]]]; discriminate X.
    + cbn. intros [X|[X|[X|[X|[]]]]]; discriminate X.
    + exists "x"%char. split; [now left|discriminate].
  - exists [{| r_fmt := $"tough"; r_exts := []; r_reader := Some 1%nat; r_writer := Some 2%nat |}],
      [{| r_fmt := $"mine"; r_exts := [$".jsn"; $".XYZ"]; r_reader := Some 5%nat; r_writer := None |}].
    parts; [byc|cbn; now left|]. constructor; [|constructor]. cbn. intros [X|[X|[]]]; discriminate X.
  - discriminate.
Qed.
