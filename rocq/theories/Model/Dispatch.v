(** Registration of file formats and the choice of a reader or writer:
    /repo/toughio/_common.py:101-119, _io/input/_helpers.py, _io/output/_helpers.py,
    _mesh/_helpers.py. *)
From Coq Require Import String Ascii ZArith Bool List.
From Verif Require Import Base.Str Model.Py.
Import ListNotations.
Local Open Scope Z_scope.

(** A dictionary with string keys: d[k] and d[k] = v, as used on the tables of
    _io/input/_helpers.py:10-12. *)
Definition table (A : Type) := list (str * A).
Fixpoint tget {A} (k : str) (t : table A) : option A :=   (* d[k], _io/input/_helpers.py:80 *)
  match t with [] => None | (k', v) :: r => if streqb k k' then Some v else tget k r end.
Fixpoint tset {A} (k : str) (v : A) (t : table A) : table A :=   (* d[k] = v, _common.py:105-112 *)
  match t with
  | [] => [(k, v)]
  | (k', v') :: r => if streqb k k' then (k', v) :: r else (k', v') :: tset k v r
  end.

(** The three tables of a _helpers module (_io/input/_helpers.py:10-12); [A] is
    the type of the reading and writing functions. *)
Record tables (A : Type) := { t_ext : table str; t_read : table A; t_write : table A }.
Arguments t_ext {A}. Arguments t_read {A}. Arguments t_write {A}.
Definition no_tables {A} : tables A := {| t_ext := []; t_read := []; t_write := [] |}.   (* _io/input/_helpers.py:10-12 *)

(** The arguments of [register], _io/input/_helpers.py:15 *)
Record registration (A : Type) :=
  { r_fmt : str; r_exts : list str; r_reader : option A; r_writer : option A }.
Arguments r_fmt {A}. Arguments r_exts {A}. Arguments r_reader {A}. Arguments r_writer {A}.

(** register_format, _common.py:101-112 *)
Definition register_format {A} (t : tables A) (r : registration A) : tables A :=
  {| t_ext := fold_left (fun acc ext => tset ext (r_fmt r) acc) (r_exts r) (t_ext t);
     t_read := match r_reader r with Some f => tset (r_fmt r) f (t_read t) | None => t_read t end;
     t_write := match r_writer r with Some f => tset (r_fmt r) f (t_write t) | None => t_write t end |}.

(** The tables after a history of calls to [register], _io/input/_helpers.py:31-39 *)
Definition registered {A} (hist : list (registration A)) : tables A := fold_left register_format hist no_tables.

(** s.rfind(c): the last index, or -1 (used by os.path.splitext, _common.py:117) *)
Fixpoint rfind (c : ascii) (s : str) : Z :=
  match s with
  | [] => -1
  | c' :: r => let i := rfind c r in
               if 0 <=? i then i + 1 else if Ascii.eqb c c' then 0 else -1
  end.
(** os.path.splitext(filename)[1] on POSIX (_common.py:117): the text from the
    last dot on, unless a separator follows it or only dots precede it in the
    last component. *)
Definition extension (p : str) : str :=
  let sep := rfind "/" p in
  let dot := rfind "." p in
  if sep <? dot then
    if existsb (fun c => negb (Ascii.eqb c ".")) (slice (Z.to_nat (sep + 1)) (Z.to_nat dot) p)
    then skipn (Z.to_nat dot) p else []
  else [].

(** filetype_from_filename, _common.py:115-119 *)
Definition filetype_from_filename (filename : str) (ext_to_fmt : table str) : str :=
  match tget (lower (extension filename)) ext_to_fmt with Some f => f | None => [] end.

(** The format tough or json, _io/input/_helpers.py:70-78 and 110-118 *)
Definition input_format {A} (t : tables A) (filename : pyval) (file_format : option str) : res str :=
  match filename with
  | PStr name =>
      match file_format with
      | Some f => if existsb (streqb f) [$"tough"; $"json"] then Ok f else Err ValueError
      | None => let fmt := filetype_from_filename name (t_ext t) in
                Ok (if nonempty fmt then fmt else $"tough")
      end
  | _ => Err TypeError
  end.
(** d[fmt] on a table of functions, _io/input/_helpers.py:80 *)
Definition call {A} (fmt : str) (m : table A) : res A :=
  match tget fmt m with Some f => Ok f | None => Err KeyError end.
(** The function called by [read], _io/input/_helpers.py:68-80 *)
Definition input_reader {A} (t : tables A) (filename : pyval) (file_format : option str) : res A :=
  let* fmt := input_format t filename file_format in call fmt (t_read t).
(** The function called by [write], _io/input/_helpers.py:106-120 *)
Definition input_writer {A} (t : tables A) (filename parameters : pyval) (file_format : option str) : res A :=
  match filename, parameters with
  | PStr _, PDict _ => let* fmt := input_format t filename file_format in call fmt (t_write t)
  | _, _ => Err TypeError
  end.

(** file_format if file_format else filetype_from_filename(...),
    _io/output/_helpers.py:140-144 and _mesh/_helpers.py:88-92, 142-146 *)
Definition either_format {A} (t : tables A) (filename : str) (file_format : option str) : str :=
  match file_format with
  | Some (c :: f) => c :: f
  | _ => filetype_from_filename filename (t_ext t)
  end.
(** The function called by [write], _io/output/_helpers.py:130-146, for an
    output of the right type *)
Definition output_writer {A} (t : tables A) (filename : pyval) (file_format : option str) : res A :=
  match filename with
  | PStr name => call (either_format t name file_format) (t_write t)
  | _ => Err TypeError
  end.
(** The function called by [read] and [write], _mesh/_helpers.py:86-107 and
    140-156: [None] is meshio. *)
Definition mesh_reader {A} (t : tables A) (filename : pyval) (file_format : option str) : res (option A) :=
  match filename with
  | PStr name => Ok (tget (either_format t name file_format) (t_read t))
  | _ => Err TypeError
  end.
Definition mesh_writer {A} (t : tables A) (filename : pyval) (file_format : option str) : res (option A) :=   (* _mesh/_helpers.py:140-156 *)
  match filename with
  | PStr name => Ok (tget (either_format t name file_format) (t_write t))
  | _ => Err TypeError
  end.
