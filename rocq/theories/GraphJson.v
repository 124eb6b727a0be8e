(** Model of FileDependencyGraph.store / load, graph.py:206-285. *)
From Verif Require Import Base Graph Json.
From Coq Require Import List NArith ZArith Bool String.
Import ListNotations.

Section Float.
(** [mtime] is a python float.  How floats are written ([float.__repr__]) and
    read ([float()]) is a parameter. *)
Context (float_repr : Z -> str) (float_parse : str -> option Z).

(** graph.py:229-236: the metadata dictionary *)
Definition meta_json (n : node) : json :=
  JObj [(lit "filesize", JNum (print_Z (n_size n)));
        (lit "mtime", JNum (float_repr (n_mtime n)));
        (lit "inode", JNum (print_Z (n_inode n)))].

(** graph.py:223-237: one entry *)
Definition store_entry (kv : str * node) : str :=
  let '(path, n) := kv in
  dump (JStr path) ++ lit ":{""parents"":" ++ dump (JList (map JStr (n_parents n)))
  ++ lit ",""children"":" ++ dump (JList (map JStr (n_children n)))
  ++ lit ",""metadata"":" ++ dump (meta_json n) ++ lit "}".

(** graph.py:219-238 store *)
Definition store (g : graph) : str :=
  lit "{" ++ join (lit ",") (map store_entry g) ++ lit "}" ++ [10%N].

(** graph.py:268-280: get or create the stub for a referenced path *)
Definition ensure_node (p : str) (g : graph) : graph :=
  if dmem p g then g else dset p (mkNode 0 0 0 [] []) g.

(** graph.py:268-273 *)
Fixpoint load_parents (path : str) (l : list json) (g : graph) : option graph :=
  match l with
  | [] => Some g
  | JStr p :: r =>
      let g1 := ensure_node p g in
      match dget path g1 with
      | Some n => load_parents path r (dset path (with_parents (fun l => l ++ [p]) n) g1)
      | None => None
      end
  | _ :: _ => None
  end.
(** graph.py:275-280 *)
Fixpoint load_children (path : str) (l : list json) (g : graph) : option graph :=
  match l with
  | [] => Some g
  | JStr p :: r =>
      let g1 := ensure_node p g in
      match dget path g1 with
      | Some n => load_children path r (dset path (with_children (fun l => l ++ [p]) n) g1)
      | None => None
      end
  | _ :: _ => None
  end.

(** reading a number *)
Definition get_int (v : option json) : option Z := match v with Some (JNum raw) => parse_Z raw | _ => None end.
Definition get_float (v : option json) : option Z := match v with Some (JNum raw) => float_parse raw | _ => None end.
Definition get_list (v : option json) : option (list json) := match v with Some (JList l) => Some l | _ => None end.

(** graph.py:259-280: one item of the loop.  [None]: KeyError or TypeError. *)
Definition load_item (kv : str * json) (g : graph) : option graph :=
  let '(path, item) := kv in
  let g1 := ensure_node path g in
  match jget (lit "metadata") item with
  | None => None
  | Some md =>
      match get_float (jget (lit "mtime") md), get_int (jget (lit "filesize") md), get_int (jget (lit "inode") md),
            get_list (jget (lit "parents") item), get_list (jget (lit "children") item), dget path g1 with
      | Some mt, Some fs, Some ino, Some ps, Some cs, Some n =>
          match load_parents path ps (dset path (mkNode fs mt ino (n_parents n) (n_children n)) g1) with
          | None => None
          | Some g2 => load_children path cs g2
          end
      | _, _, _, _, _, _ => None
      end
  end.

Fixpoint load_items (l : list (str * json)) (g : graph) : option graph :=
  match l with
  | [] => Some g
  | kv :: r => match load_item kv g with Some g1 => load_items r g1 | None => None end
  end.

(** the python dictionary built from the pairs of a JSON object *)
Definition to_dict (l : list (str * json)) : dict json := fold_left (fun d kv => dset (fst kv) (snd kv) d) l [].

(** graph.py:256-283 load.  [None]: some exception. *)
Definition load (text : str) : option graph :=
  match json_load text with
  | Some (JObj l) => load_items (to_dict l) []
  | _ => None
  end.
End Float.
