(** JSON input files, /repo/toughio/_io/input/json/_json.py, and the effect of
    the writers on files.

    The library [json] is modelled on trees: [json.dump] turns Python objects
    into a tree (or raises TypeError), [json.load] turns the tree into objects.
    The text of a tree and its parsing are not modelled; [json] reads back what
    it writes (floats are written with repr). *)
From Coq Require Import String Ascii ZArith Bool List.
From Verif Require Import Base.Str Base.Digits Base.Flt Model.Py Model.Records Model.Write Model.Dispatch.
Import ListNotations.
Local Open Scope Z_scope.

(** Python objects, with those that json cannot write: [OOther] is an object of
    any other class (set, complex, numpy.float32, numpy.bool_, …); [OTuple] is a
    tuple used as a key.  ONpInt is numpy.int32 / numpy.int64 (_json.py:66). *)
Inductive okey := OKey (k : key) | OTuple.
Inductive obj :=   (* the values of parameters, _json.py:64-75 *)
| ONone
| OBool (b : bool)
| OInt (z : Z)
| ONpInt (z : Z)
| OFloat (x : flt)
| OStr (s : str)
| OSeq (k : seqk) (l : list obj)
| ODict (d : list (okey * obj))
| OOther.

(** x.tolist() of a numpy array, _json.py:71: numpy integers become integers,
    nested arrays lists; objects of an object array are kept. *)
Fixpoint tolist (x : obj) : obj :=
  match x with
  | ONpInt z => OInt z
  | OSeq SArray l => OSeq SList (map tolist l)
  | _ => x
  end.
(** jsonify, _json.py:64-75 *)
Fixpoint jsonify (x : obj) : obj :=
  match x with
  | ONpInt z => OInt z
  | OSeq SArray l => OSeq SList (map tolist l)
  | OSeq _ l => OSeq SList (map jsonify l)
  | ODict d => ODict (map (fun kv => (fst kv, jsonify (snd kv))) d)
  | _ => x
  end.

(** JSON trees *)
Inductive json :=   (* json.dump, _json.py:80 *)
| JNull | JBool (b : bool) | JInt (z : Z) | JFloat (x : flt) | JStr (s : str)
| JList (l : list json) | JObj (d : list (str * json)).

(** The name of a key in json.dump (_json.py:80): an integer is printed, None
    is null, a tuple is a TypeError. *)
Definition dump_key (k : okey) : res str :=
  match k with
  | OKey (KS s) => Ok s
  | OKey (KI z) => Ok (print_Z z)
  | OKey KNone => Ok ($"null")
  | OTuple => Err TypeError
  end.
(** [mapM], in a form accepted inside a recursive definition *)
Definition mapR {A B} (f : A -> res B) : list A -> res (list B) :=   (* _json.py:80 *)
  fix go l := match l with
              | [] => Ok []
              | a :: r => let* b := f a in let* bs := go r in Ok (b :: bs)
              end.
(** json.dump, _json.py:80: lists and tuples are arrays; numpy integers, numpy
    arrays and other objects are not serialisable. *)
Fixpoint dump (x : obj) : res json :=
  match x with
  | ONone => Ok JNull
  | OBool b => Ok (JBool b)
  | OInt z => Ok (JInt z)
  | ONpInt _ => Err TypeError
  | OFloat f => Ok (JFloat f)
  | OStr s => Ok (JStr s)
  | OSeq SArray _ => Err TypeError
  | OSeq _ l => let* l' := mapR dump l in Ok (JList l')
  | ODict d => let* d' := mapR (fun kv => match kv with (k, v) => let* k := dump_key k in let* v := dump v in Ok (k, v) end) d in
               Ok (JObj d')
  | OOther => Err TypeError
  end.

(** Objects read: dictionaries with string or (after to_int) integer keys. *)
Definition odict := list (okey * obj).   (* _json.py:34-47 *)
Definition okey_eqb (a b : okey) : bool :=   (* _json.py:31-47 *)
  match a, b with OKey x, OKey y => key_eqb x y | OTuple, OTuple => true | _, _ => false end.
Fixpoint oget (k : okey) (d : odict) : option obj :=   (* _json.py:31 *)
  match d with [] => None | (k', v) :: r => if okey_eqb k k' then Some v else oget k r end.
Fixpoint oset (k : okey) (v : obj) (d : odict) : odict :=   (* _json.py:31, 37 *)
  match d with
  | [] => [(k, v)]
  | (k', v') :: r => if okey_eqb k k' then (k', v) :: r else (k', v') :: oset k v r
  end.
(** json.load, _json.py:34: a dictionary is filled pair by pair. *)
Fixpoint load (j : json) : obj :=
  match j with
  | JNull => ONone
  | JBool b => OBool b
  | JInt z => OInt z
  | JFloat x => OFloat x
  | JStr s => OStr s
  | JList l => OSeq SList (map load l)
  | JObj d => ODict (fold_left (fun acc kv => oset (OKey (KS (fst kv))) (snd kv) acc)
                       (map (fun kv => (fst kv, load (snd kv))) d) [])
  end.

(** Order of strings (code points) and sorted(keys), _json.py:31 *)
Fixpoint str_leb (a b : str) : bool :=
  match a, b with
  | [], _ => true
  | _ :: _, [] => false
  | x :: a', y :: b' => if code x <? code y then true else if code x =? code y then str_leb a' b' else false
  end.
Fixpoint insert_str (s : str) (l : list str) : list str :=   (* sorted, _json.py:31 *)
  match l with [] => [s] | t :: r => if str_leb s t then s :: l else t :: insert_str s r end.
Definition sort_str (l : list str) : list str := fold_right insert_str [] l.   (* sorted, _json.py:31 *)
Definition str_keys (d : odict) : list str :=   (* data.keys(), _json.py:31 *)
  flat_map (fun kv => match fst kv with OKey (KS s) => [s] | _ => [] end) d.
(** to_int, _json.py:29-31.  The keys read from JSON are strings. *)
Definition to_int (v : obj) : res obj :=
  match v with
  | ODict d =>
      let* d' := foldM (fun acc s =>
                   match parse_int s, oget (OKey (KS s)) d with
                   | Some z, Some x => Ok (oset (OKey (KI z)) x acc)
                   | None, _ => Err ValueError
                   | _, None => Err KeyError
                   end) [] (sort_str (str_keys d)) in
      Ok (ODict d')
  | _ => Err AttributeError
  end.
(** if k in parameters.keys(): parameters[k] = to_int(parameters[k]), _json.py:36-40 *)
Definition restore (k : okey) (p : odict) : res odict :=
  match oget k p with
  | Some v => let* v' := to_int v in Ok (oset k v' p)
  | None => Ok p
  end.
(** _json.py:42-45 *)
Definition restore_selections (p : odict) : res odict :=
  match oget (OKey #"selections") p with
  | Some (ODict s) =>
      match oget (OKey #"integers") s with
      | Some v => let* v' := to_int v in Ok (oset (OKey #"selections") (ODict (oset (OKey #"integers") v' s)) p)
      | None => Err KeyError
      end
  | Some _ => Err TypeError
  | None => Ok p
  end.
(** read, _json.py:33-47 *)
Definition json_read (j : json) : res obj :=
  match load j with
  | ODict p =>
      let* p := restore (OKey #"extra_options") p in
      let* p := restore (OKey #"more_options") p in
      let* p := restore_selections p in
      Ok (ODict p)
  | _ => Err AttributeError
  end.
(** The tree written by [write], _json.py:78-80 *)
Definition json_tree (parameters : obj) : res json := dump (jsonify parameters).

(** ** Files *)
(** A file holds a text, the text of a JSON tree, or the unfinished text of a
    write that failed. *)
Inductive content := Text (s : str) | Json (j : json) | Unfinished.   (* _json.py:77-80, _write.py:62-65 *)
(** A file system, as seen by open(filename, …), _json.py:33 and 77 *)
Definition files := str -> option content.
Definition put (n : str) (c : content) (f : files) : files := fun m => if streqb m n then Some c else f m.   (* _json.py:77-80, _write.py:62-65 *)
(** open(filename, "w"): the file is empty, _write.py:63 and _json.py:77 *)
Definition open_w (n : str) (f : files) : files := put n (Text []) f.
(** f.write(record), _write.py:65 *)
Definition append (n : str) (s : str) (f : files) : files :=
  match f n with Some (Text t) => put n (Text (t ++ s)) f | _ => f end.

(** write of tough/_write.py:62-65: the records are all produced before the
    file is opened, then written one by one. *)
Definition tough_write (f : files) (filename : str) (parameters : dict) (blk : str) : res unit * files :=
  match (match sel_of blk with
         | None => Err ValueError
         | Some sel => let* p := prepare parameters in write_buffer p sel
         end) with
  | Ok recs => (Ok tt, fold_left (fun g r => append filename r g) recs (open_w filename f))
  | Err e => (Err e, f)
  end.
(** write of json/_json.py:77-80: the file is opened first; what is written
    when the serialisation fails half-way is not described. *)
Definition json_write (f : files) (filename : str) (parameters : obj) : res unit * files :=
  let g := open_w filename f in
  match json_tree parameters with
  | Ok j => (Ok tt, put filename (Json j) g)
  | Err e => (Err e, put filename Unfinished g)
  end.
