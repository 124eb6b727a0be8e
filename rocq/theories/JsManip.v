(** build/js/manips/type_hints.py and build/js/manips/hash_imports.py, and the
    pipeline of build/handlers/js.py 20-31. *)
From Verif Require Import Base Graph PyPath PyNorm Js Builder JsYield CssVersion.
From Coq Require Import String ZArith NArith Bool List.
Import ListNotations.
Open Scope list_scope.
Open Scope N_scope.

Definition is_jeof (t : jtok) : bool := match t with JEof => true | _ => false end.
Definition is_line_end (t : jtok) : bool := match t with JNewline | JEof => true | _ => false end.

(** * type_hints.py *)
(** 41-45 *)
Definition is_hint (t : jtok) : bool := match t with JComment v => str_eqb (strip v) (lit "@@type-hint") | _ => false end.
(** 39-58, from the test of the loop; the suspended generator is [should_exclude_line];
    the attribute is [_skip_next_line] *)
Definition th_loop (exclude : bool) (t : jtok) (stack : list jtok) (skip : bool) : res (step jtok bool * bool) :=
  if is_line_end t then
    if negb exclude then Ret (Done None, true)
    else Ret (Done (Some [JComment (js_serialize_many (removelast stack)); last stack JEof]), skip)
  else Ret (Yield (exclude || is_hint t), skip).
(** 28-39 *)
Definition th_start (scan : bool) (t : jtok) (skip : bool) : res (step jtok bool * bool) :=
  if scan then Ret (Done None, skip)
  else if skip then Ret (Done None, negb (match t with JNewline => true | _ => false end))
  else th_loop false t [t] skip.
Definition type_hints (scan : bool) : handler jtok bool bool :=
  {| h_start := th_start scan; h_send := fun g t stack skip => th_loop g t stack skip |}.

(** * hash_imports.py *)
(** the places where [handle] waits for the next token that is not a space or a line
    terminator *)
Inductive igen :=
| GImport          (* 42 *)
| GDefault         (* 48 *)
| GDefaultAs       (* 50 *)
| GDefaultAlias    (* 53 *)
| GDefaultComma    (* 55, 59 *)
| GStar            (* 64 *)
| GStarAs          (* 66 *)
| GStarAlias       (* 69 *)
| GStarComma       (* 71, 75 *)
| GOpen            (* 80, 99 *)
| GName            (* 83 *)
| GNameAs          (* 85 *)
| GNameAlias       (* 90 *)
| GClose           (* 103 *)
| GFrom.           (* 111 *)
(** what [handle] does with the token: wait again, [_handle_import(path)], or
    [_mark_import_bad(hint)] *)
Inductive ioutcome := Wait (g : igen) | Import (path : str) | Bad (hint : str).
(** 108-111, with [expecting_from] *)
Definition at_from (t : jtok) : ioutcome := match t with JFrom => Wait GFrom | _ => Bad (lit "expected from") end.
(** 79-106, without [expecting_from] *)
Definition at_braces (t : jtok) : ioutcome := match t with JOpen => Wait GOpen | _ => Bad (lit "expected next import") end.
(** 81-82 and 100-103: the test of the loop *)
Definition at_name (t : jtok) : ioutcome :=
  match t with JClose => Wait GClose | JIdent _ => Wait GName | _ => Bad (lit "expected named export") end.
(** 63-64, without [expecting_from] *)
Definition at_star (t : jtok) : ioutcome := match t with JStar => Wait GStar | _ => at_braces t end.
(** 42-115 *)
Definition advance (g : igen) (t : jtok) : ioutcome :=
  match g with
  | GImport => match t with JString v => Import v | JIdent _ => Wait GDefault | _ => at_star t end
  | GDefault => match t with JAs => Wait GDefaultAs | JComma => Wait GDefaultComma | _ => at_from t end
  | GDefaultAs => match t with JIdent _ => Wait GDefaultAlias | _ => Bad (lit "expected alias for default export") end
  | GDefaultAlias => match t with JComma => Wait GDefaultComma | _ => at_from t end
  | GDefaultComma => at_star t
  | GStar => match t with JAs => Wait GStarAs | JComma => Wait GStarComma | _ => at_from t end
  | GStarAs => match t with JIdent _ => Wait GStarAlias | _ => Bad (lit "expected alias for asterisk") end
  | GStarAlias => match t with JComma => Wait GStarComma | _ => at_from t end
  | GStarComma => at_braces t
  | GOpen => at_name t
  | GName => match t with JAs => Wait GNameAs | JComma => Wait GOpen | _ => at_name t end
  | GNameAs => match t with JIdent _ => Wait GNameAlias | _ => Bad (lit "expected alias for named export") end
  | GNameAlias => match t with JComma => Wait GOpen | JClose => Wait GClose | _ => Bad (lit "expected comma or close curly bracket") end
  | GClose => at_from t
  | GFrom => match t with JString v => Import v | _ => Bad (lit "expected string literal after from") end
  end.
(** 12 and 167-173 *)
Definition is_blank (t : jtok) : bool := match t with JSpace _ | JNewline => true | _ => false end.
(** 206-209 *)
Definition ignore_mark : str := lit "PREPROCESSOR: ignore-import".
Definition is_ignore (t : jtok) : bool := match t with JComment v => starts_with ignore_mark v | _ => false end.
(** 24-28; [i_seen] are the dependencies (scan) or the children (build) *)
Record istate := { i_skip : bool; i_seen : list str }.

Section Imports.
(** the working directory, [context.folder], the script, the files and the text of a
    member of JSTokenType inside an f-string (it depends on the version of python) *)
Context (cwd folder script : str) (read : str -> option str) (type_name : jtok -> str).
(** 196-204 *)
Definition mark_bad (hint : str) (stack : list jtok) : list jtok :=
  JComment (ignore_mark ++ [32] ++ hint ++ lit "; final token: " ++ type_name (last stack JEof)) :: stack.
Definition public : str := join_path (lit "src") [lit "public"].
(** 119-120 *)
Definition local_path (p : str) : bool := starts_with [47] p || starts_with [46; 47] p || starts_with [46; 46; 47] p.
(** 122-123 *)
Definition queried (p : str) : bool := existsb (fun c => (c =? 63) || (c =? 35)) p.
(** 125-142: [rel_to_root] and the new [import_path]; replacing "/" by os.path.sep is
    the identity here *)
Definition resolve (p : str) : str * str :=
  if starts_with [47] p then (join_path (lit "src") [lit "public"; tl p], p)
  else
    let abs := abspath cwd (join_path folder [dirname script; p]) in
    let root := relpath cwd abs (abspath cwd folder) in
    (root, 47 :: relpath cwd root public).
(** 151-155; the name of the hash file is relative to [context.folder] *)
Definition hash_file (root : str) : str := join_path (lit "out") [lit "www"; relpath cwd root public ++ lit ".hash"].
(** 118-165 *)
Definition handle_import (scan : bool) (p : str) (stack : list jtok) (s : istate) : res (step jtok igen * istate) :=
  if negb (local_path p) then Ret (Done (Some (mark_bad (lit "unexpected path format") stack)), s)
  else if queried p then Ret (Done (Some (mark_bad (lit "path contains invalid characters") stack)), s)
  else
    let '(root, path) := resolve p in
    if scan then Ret (Done None, {| i_skip := true; i_seen := set_add root (i_seen s) |})
    else
      match read (hash_file root) with
      | None => Raise FileNotFoundError
      | Some hash =>
          Ret (Done (Some (removelast stack ++ [JString (path ++ [63] ++ urlencode [(lit "v", hash); (lit "pv", PROCESSOR_VERSION)])])),
               {| i_skip := true; i_seen := set_add root (i_seen s) |})
      end.
(** 30-40 *)
Definition hi_start (t : jtok) (s : istate) : res (step jtok igen * istate) :=
  if negb (i_skip s) && is_ignore t then Ret (Done None, {| i_skip := true; i_seen := i_seen s |})
  else match t with
       | JImport => if i_skip s then Ret (Done None, {| i_skip := false; i_seen := i_seen s |}) else Ret (Yield GImport, s)
       | _ => Ret (Done None, s)
       end.
(** 42-115 and 167-173 *)
Definition hi_send (scan : bool) (g : igen) (t : jtok) (stack : list jtok) (s : istate) : res (step jtok igen * istate) :=
  if is_blank t then Ret (Yield g, s)
  else match advance g t with
       | Wait g' => Ret (Yield g', s)
       | Bad hint => Ret (Done (Some (mark_bad hint stack)), s)
       | Import p => handle_import scan p stack s
       end.
Definition hash_imports (scan : bool) : handler jtok igen istate := {| h_start := hi_start; h_send := hi_send scan |}.

(** handlers/js.py 20-23, in this order *)
Definition js_manips (scan : bool) : list (manip jtok (ymanip_state (tok := jtok) (G := bool) (L := bool) * ymanip_state (tok := jtok) (G := igen) (L := istate))) :=
  [lift_fst (yield_manip is_jeof (type_hints scan)); lift_snd (yield_manip is_jeof (hash_imports scan))].
(** type_hints.py 21-26 and hash_imports.py 16-28 *)
Definition js_init : ymanip_state * ymanip_state :=
  ((@Unmarked jtok bool, false), (@Unmarked jtok igen, {| i_skip := false; i_seen := [] |})).
End Imports.
