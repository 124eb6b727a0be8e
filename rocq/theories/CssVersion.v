(** build/css/manips/version_urls.py *)
From Verif Require Import Base Graph PyPath Css Builder.
From Coq Require Import String ZArith NArith Bool List.
Import ListNotations.
Open Scope list_scope.
Open Scope N_scope.

Definition set_add (x : str) (l : list str) : list str := if mem x l then l else l ++ [x].

Section Version.
Context {F : Type}.
Notation token := (@token F).
(** [relpath] is the stylesheet; [read] reads a file of the project, [None] if there is none *)
Context (relpath : str) (read : str -> option str).
(** 46 and 39-42; [v_seen] are the dependencies (scan) or the children (build) *)
Record vstate := { v_in_url : bool; v_seen : list str }.
(** 80-99: the path of the hash file, or [None] *)
Definition hash_path (url : str) : option str :=
  match url with
  | [] => None
  | c :: rel =>
      if negb (c =? 47) then None
      else if existsb (N.eqb 63) url then None
      else if str_eqb (join_path (lit "src") [lit "public"; rel]) relpath then None
      else Some (join_path (lit "out") [lit "www"; rel ++ lit ".hash"])
  end.
(** the [value] of the node, for the tokens that can be marked *)
Definition value_of (t : token) : option str := match t with TUrl v | TString v => Some v | _ => None end.
Definition with_value (t : token) (v : str) : token := match t with TUrl _ => TUrl v | TString _ => TString v | _ => t end.
(** 48-78; [scan]: the mode *)
Definition v_start (scan : bool) (t : token) (s : vstate) : res (bool * vstate) :=
  let found v :=
    match hash_path v with
    | Some h => if scan then Ret (false, {| v_in_url := v_in_url s; v_seen := set_add h (v_seen s) |}) else Ret (true, s)
    | None => Ret (false, s)
    end in
  if v_in_url s then
    match t with
    | TRParen => Ret (false, {| v_in_url := false; v_seen := v_seen s |})
    | TString v => found v
    | _ => Ret (false, s)
    end
  else
    match t with
    | TUrl v => found v
    | TFunction n => if is_url_name n then Ret (false, {| v_in_url := true; v_seen := v_seen s |}) else Ret (false, s)
    | _ => Ret (false, s)
    end.
(** 101-117 *)
Definition v_continue (t : token) (s : vstate) : res (option (list token) * vstate) :=
  match value_of t with
  | None => Raise KeyError
  | Some v =>
      match hash_path v with
      | None => Ret (Some [t], s)
      | Some h =>
          match read h with
          | None => Raise FileNotFoundError
          | Some hash =>
              Ret (Some [with_value t (v ++ [63] ++ urlencode [(lit "v", hash); (lit "pv", PROCESSOR_VERSION)])],
                   {| v_in_url := v_in_url s; v_seen := set_add h (v_seen s) |})
          end
      end
  end.
Definition version_urls (scan : bool) : manip token vstate := {| start_mark := v_start scan; continue_mark := v_continue |}.
(** 46 *)
Definition v_init : vstate := {| v_in_url := false; v_seen := [] |}.
End Version.
