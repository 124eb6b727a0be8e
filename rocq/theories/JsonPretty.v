(** json.dump with [indent=2], as used for the records of exported images
    (build/html/manips/images/exporter.py 315): json/encoder.py _make_iterencode. *)
From Verif Require Import Base Json.
From Coq Require Import String NArith Bool List.
Import ListNotations.
Open Scope list_scope.
Open Scope N_scope.

(** a new line, and the indentation of [n] levels *)
Definition line (n : nat) : str := 10 :: repeat 32 (2 * n).
Fixpoint pretty (n : nat) (v : json) : str :=
  match v with
  | JList [] => [c_lbrack; c_rbrack]
  | JList l => [c_lbrack] ++ line (S n) ++ join ([c_comma] ++ line (S n)) (map (pretty (S n)) l) ++ line n ++ [c_rbrack]
  | JObj [] => [c_lbrace; c_rbrace]
  | JObj l => [c_lbrace] ++ line (S n) ++ join ([c_comma] ++ line (S n)) (map (fun kv => dump_str (fst kv) ++ lit ": " ++ pretty (S n) (snd kv)) l) ++ line n ++ [c_rbrace]
  | _ => dump v
  end.
