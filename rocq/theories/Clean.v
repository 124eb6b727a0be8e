(** runners/clean.py.  The file system is a dictionary from paths relative to the project
    folder to contents; only files are represented. *)
From Verif Require Import Base Graph GraphJson.
From Coq Require Import String ZArith NArith Bool List.
Import ListNotations.
Open Scope list_scope.
Open Scope N_scope.

Definition fs := list (str * str).
(** the node has a parent: 63 and 95 *)
Definition has_parents (kv : str * node) : bool := negb (match n_parents (snd kv) with [] => true | _ => false end).
(** 62-64: os.remove raises if the file does not exist *)
Fixpoint remove_placeholders (nodes : graph) (f : fs) : res fs :=
  match nodes with
  | [] => Ret f
  | (p, n) :: r =>
      if has_parents (p, n) then
        if dmem p f then remove_placeholders r (ddel p f) else Raise FileNotFoundError
      else remove_placeholders r f
  end.
(** shutil.rmtree with ignore_errors *)
Definition rmtree (d : str) (f : fs) : fs := filter (fun kv => negb (str_eqb (fst kv) d || starts_with (d ++ [47]) (fst kv))) f.
(** the read of the stored graph is [GraphJson.load]; [float_parse] is its reading of a number *)
Section Clean.
Variable float_parse : str -> option Z.
Definition graph_path : str := lit "out/placeholder_graph.json".
(** 45-67; [None] is sys.exit(1); a text that cannot be loaded raises (ValueError stands
    for all such exceptions) *)
Definition clean (placeholders : bool) (f : fs) : option (res fs) :=
  if negb (dmem (lit "vanillaplusjs.json") f) then None
  else
    let removed :=
      if placeholders then
        match dget graph_path f with
        | None => Ret f
        | Some text => match load float_parse text with None => Raise ValueError | Some g => remove_placeholders g f end
        end
      else Ret f in
    Some (match removed with Raise e => Raise e | Ret f => Ret (rmtree (lit "artifacts") (rmtree (lit "out") f)) end).

(** 105-113: the answers typed; [None] when they end (EOFError) *)
Fixpoint ask (answers : list str) : option bool :=
  match answers with
  | [] => None
  | a :: r => if str_eqb a (lit "y") || str_eqb a (lit "Y") then Some true else if str_eqb a (lit "n") || str_eqb a (lit "N") then Some false else ask r
  end.
(** 70-113 *)
Definition prompt (f : fs) (answers : list str) : res (option bool) :=
  match dget graph_path f with
  | None => Ret (Some false)
  | Some text =>
      match load float_parse text with
      | None => Raise ValueError
      | Some g => if negb (existsb has_parents g) then Ret (Some false) else Ret (ask answers)
      end
  end.
(** 32-42; [Ret None] when the program ends without cleaning *)
Definition main (yes no : bool) (answers : list str) (f : fs) : res (option fs) :=
  match (if yes then Ret (Some true) else if no then Ret (Some false) else prompt f answers) with
  | Raise e => Raise e
  | Ret None => Ret None
  | Ret (Some placeholders) => match clean placeholders f with None => Ret None | Some (Raise e) => Raise e | Some (Ret f) => Ret (Some f) end
  end.
End Clean.
