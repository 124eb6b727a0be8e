(** The html pipeline of Html.v over a folder that is a function, as in Hot.v.

    The manipulators are those of Html.v, but that LinkHash and TemplateManipulator look at files
    through [read]; C70_whole says that they agree.  Simplification: inline scripts and
    stylesheets and image comments raise, so that what is proved is about pages without them. *)
From Verif Require Import Base Graph Json PyPath PyNorm CssVersion Builder Handlers OutlineData Html.
From Coq Require Import String ZArith NArith Bool List.
Import ListNotations.
Open Scope list_scope.

Section Page.
Context (host : option str) (relpath : str) (fragment : str -> list htoken) (show : str -> str) (read : str -> option str) (scan : bool).
(** link_hash.py 131-163 *)
Definition page_link_file (path : str) : str := join_path (lit "out") [lit "www"; path] ++ lit ".hash".
Definition page_link_continue (t : htoken) (s : hstate) : res (option (list htoken) * hstate) :=
  match link_dependency t with
  | None => Raise AttributeError
  | Some (attr, path, attributes) =>
      match read (page_link_file path) with
      | None => Raise AssertionError
      | Some h =>
          let new_href := lit "/" ++ path ++ lit "?" ++ urlencode [(lit "v", strip h); (lit "pv", PROCESSOR_VERSION)] in
          let data := sort_attrs (dset attr new_href attributes) in
          Ret (Some [match t with HStart name _ => HStart name data | HEmpty name _ => HEmpty name data | t => t end], s)
      end
  end.
Definition page_links : manip htoken hstate := {| start_mark := link_start scan; continue_mark := page_link_continue |}.
(** stands for ImagesManipulator and OutlineManipulator; see C51 and C61-C66 for what they do *)
Definition page_left_out (t : htoken) : bool :=
  match inline_script t, inline_style t with
  | None, None => match t with HComment text => match rule_args false (lit "IMAGE") text with Some _ => true | None => false end | _ => false end
  | _, _ => true
  end.
Definition page_guard : manip htoken hstate :=
  {| start_mark := fun t s => if page_left_out t then Raise ValueError else Ret (false, s); continue_mark := fun _ _ => Raise ValueError |}.
(** template.py 127-154 *)
Definition page_template (c : str) (l : list json) (s : hstate) : res (list htoken * hstate) :=
  match template_import (t_frame s) c l with
  | None => Ret ([], s)
  | Some (path, vars) =>
      let s := with_templates (set_add path (t_seen s)) s in
      match read path with
      | None => Raise FileNotFoundError
      | Some text =>
          Ret (stack_comment [JStr (lit "push"); JStr path] :: map (fun kv => stack_comment [JStr (lit "define"); JStr (fst kv); snd kv]) vars
               ++ fragment text ++ [stack_comment [JStr (lit "pop")]], s)
      end
  end.
(** template.py 77-86 *)
Definition page_template_continue (t : htoken) (s : hstate) : res (option (list htoken) * hstate) :=
  let some r := match r with Raise e => Raise e | Ret (ts, s) => Ret (Some ts, s) end in
  match stack_command t with
  | Some (c, l) => some (handle_stack show c l s)
  | None => match template_command t with Some (c, l) => some (page_template c l s) | None => Ret (Some [], s) end
  end.
Definition page_templates : manip htoken hstate := {| start_mark := template_start; continue_mark := page_template_continue |}.
(** handlers/html.py 38-50 *)
Definition page_manips : list (manip htoken hstate) := [canonical host relpath scan; page_links; page_guard; page_templates].
End Page.
