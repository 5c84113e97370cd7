(** The commands toughio-merge and toughio-save2incon,
    /repo/toughio/_cli/_merge.py and _save2incon.py. *)
From Coq Require Import String Ascii Bool List.
From Verif Require Import Base.Str Model.Py.
Import ListNotations.

(** Files by name; the argument parser (_merge.py:65-87, _save2incon.py:34-66)
    is not modelled. *)
Definition disk := str -> option str.
(** open(name, "w") and what is written, _merge.py:60-62, _save2incon.py:17 *)
Definition store (d : disk) (name text : str) : disk := fun n => if streqb n name then Some text else d n.

(** s.rstrip("/") *)
Fixpoint lstrip_slash (s : str) : str :=   (* os.path.split, _merge.py:13 *)
  match s with c :: r => if Ascii.eqb c "/" then lstrip_slash r else s | [] => [] end.
Definition rstrip_slash (s : str) : str := rev (lstrip_slash (rev s)).   (* os.path.split, _merge.py:13 *)
(** The part up to the last "/", without it when it is not all slashes:
    os.path.split(infile)[0], _merge.py:13 *)
Fixpoint drop_name (s : str) : str :=
  match s with c :: r => if Ascii.eqb c "/" then s else drop_name r | [] => [] end.
Definition path_head (s : str) : str :=   (* os.path.split(infile)[0], _merge.py:13 *)
  let h := rev (drop_name (rev s)) in
  match rstrip_slash h with [] => h | h' => h' end.
(** The name of a file beside the input, _merge.py:14-15 *)
Definition beside (infile : str) (name : str) : str :=
  let h := path_head infile in h ++ (match h with [] => [] | _ => $"/" end) ++ name.

(** line.upper()[:5] in {...}, _merge.py:30, 49 *)
Definition keyword (line : str) : str := firstn 5 (upper line).
Definition is_block (line : str) : bool :=   (* _merge.py:30 *)
  existsb (streqb (keyword line)) [$"ROCKS"; $"PARAM"; $"ENDFI"; $"ENDCY"].
Definition is_end (line : str) : bool := existsb (streqb (keyword line)) [$"ENDFI"; $"ENDCY"].   (* _merge.py:49 *)
(** Locate the end, _merge.py:48-50: without an end, [i] is the last line. *)
Fixpoint end_index (i : nat) (ls : list str) : nat :=
  match ls with
  | [] => i
  | l :: r => if is_end l then i else match r with [] => i | _ => end_index (S i) r end
  end.

(** A file whose first line must start with a keyword, _merge.py:34-45; an empty
    file is an IndexError. *)
Definition piece (key text : str) : res (list str) :=
  match lines text with
  | [] => Err IndexError
  | l :: r => if startswith key l then Ok (l :: r) else Err ValueError
  end.
(** merge, _merge.py:6-62: what is written *)
Definition merged (d : disk) (infile : str) : res str :=
  match d infile with
  | None => Err ValueError
  | Some text =>
      match d (beside infile $"MESH") with
      | None => Err ValueError
      | Some mesh =>
          let input := lines text in
          let* _ := guard (Nat.leb 3 (List.length (filter is_block input))) ValueError in
          let* mesh := piece $"ELEME" mesh in
          let* incon := match d (beside infile $"INCON") with
                        | None => Ok []
                        | Some incon => piece $"INCON" incon
                        end in
          let i := end_index 0 input in
          Ok (concat (firstn i input ++ mesh ++ incon ++ skipn i input))
      end
  end.
Definition merge (d : disk) (infile outfile : str) : res unit * disk :=   (* _merge.py:6-62 *)
  match merged d infile with
  | Ok text => (Ok tt, store d outfile text)
  | Err e => (Err e, d)
  end.

(** The loop of save2incon, _save2incon.py:19-28: what is written and whether the
    file is refused (only the first line is checked). *)
Fixpoint save_lines (reset : bool) (ls : list str) : list str :=
  match ls with
  | [] => []
  | l :: r => if reset && startswith $"+++" l then [] else l :: save_lines reset r
  end.
(** save2incon, _save2incon.py:6-31.  The output is opened first: when it is the
    input, nothing is left to read; when the input is refused it stays empty. *)
Definition save2incon (d : disk) (infile outfile : str) (reset : bool) : res unit * disk :=
  match d infile with
  | None => (Err ValueError, d)
  | Some _ =>
      let d := store d outfile [] in
      match d infile with
      | None => (Err ValueError, d)
      | Some text =>
          match lines text with
          | [] => (Ok tt, store d outfile (if reset then [nl] else []))
          | l :: r =>
              if startswith $"INCON" l then
                (Ok tt, store d outfile (concat (save_lines reset (l :: r)) ++ (if reset then [nl] else [])))
              else (Err ValueError, d)
          end
      end
  end.
