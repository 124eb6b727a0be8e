(** build/scan_file.py, build/build_file.py and the handlers js.py, css.py, html.py, js_constants.py,
    copy.py, hash.py and copy_and_hash.py as the scans and builds of Hot.v, whose folder is a
    function.

    Handlers.v has the same handlers over a finite dictionary; C67_handlers says that they agree.
    Simplification: images.json files have no scan or build here ([None], a build that raises),
    and neither have stylesheets with icons, with images as data or that import from an absolute
    path, and pages with inline scripts, inline stylesheets or image comments, that link to an
    absolute path or use a generated file as a template, so that what is proved is about projects
    without them. *)
From Verif Require Import Base Graph PyPath PyNorm Css CssVersion Builder Handlers OutlineData IconManip Nest Html Page Js JsYield JsManip Hot.
From Coq Require Import String ZArith NArith Bool List.
Import ListNotations.
Open Scope list_scope.

(** What the handlers are given and that does not change: see JsManip.v for the working
    directory, the folder and the names of the token types; [k_fuel] bounds the loops of
    Builder.v and Nest.v; the floats and digits of Css.v; build_context.py 124:
    default_css_file; Nest.v for [k_pick]; Html.v for the host, the tokens of a template and
    str() of a number, [k_document] for html/tokenizer.py on a whole page and [k_write] for
    html5lib's serializer *)
Record setting := {
  k_cwd : str; k_folder : str; k_type_name : jtok -> str; k_fuel : nat;
  k_float : Type; k_float_of : str -> option k_float; k_float_str : k_float -> str; k_high_digit : N -> bool; k_int_high : str -> option Z;
  k_css : str; k_pick : nat -> list ref -> nat;
  k_host : option str; k_document : str -> list htoken; k_fragment : str -> list htoken; k_show : str -> str; k_write : list htoken -> str }.

Section Files.
(** hash.py 67-72; build_context.py: JSConstants and dev *)
Context (sha : str -> str) (c : constants) (dev : bool) (K : setting).
(** the results one after the other, copy_and_hash.py 22-27 and handlers/js.py 83-86 *)
Definition both (a b : build_result) : build_result :=
  mkBuild (b_children a ++ b_children b) (b_produced a ++ b_produced b) (b_reused a ++ b_reused b).
Definition then_ (a : option build_result) (s : fs) (next : fs -> option build_result) : option build_result :=
  match a with
  | None => None
  | Some a => match next (apply_build a s) with None => None | Some b => Some (both a b) end
  end.
(** copy.py 35-58 and hash.py 47-64: the target is left alone if it exists *)
Definition make (write : str -> str) (target : option str) (p : str) (s : fs) : option build_result :=
  match target with
  | None => Some (mkBuild [] [] [])
  | Some t => match s t with
              | Some _ => Some (mkBuild [] [] [t])
              | None => match s p with None => None | Some data => Some (mkBuild [] [(t, write data)] []) end
              end
  end.
Definition hash_file_of (p : str) (s : fs) : option build_result := make sha (hash_target p) p s.
(** copy_and_hash.py 19-27 *)
Definition plain_build (p : str) (s : fs) : option build_result := then_ (make (fun data => data) (copy_target p) p s) s (hash_file_of p).
(** js_constants.py 25-60 *)
Definition constants_file_build (p : str) (s : fs) : option build_result :=
  match copy_target p with
  | None => None
  | Some t => then_ (Some (match s t with Some _ => mkBuild [] [] [t] | None => mkBuild [] [(t, constants_text (merged c dev))] [] end)) s (hash_file_of t)
  end.
(** js/manipulate_and_serialize.py 23-37: the text written and the files the manipulators report *)
Definition js_run (scan : bool) (p : str) (s : fs) : option (str * list str) :=
  match s p with
  | None => None
  | Some text =>
      match js_tokenize text with
      | Raise _ => None
      | Ret ts => match pump (js_manips (k_cwd K) (k_folder K) p s (k_type_name K) scan) (k_fuel K) ts (new_builder js_init) with
                  | Raise _ => None
                  | Ret (out, b) => Some (js_serialize_many out, i_seen (snd (snd (b_st b))))
                  end
      end
  end.
Notation ctoken := (token (F := k_float K)).
Notation cstate := (nstate (F := k_float K) * vstate)%type.
(** stands for IconManipulator and OutlineImageDataManipulator: raises at an icon and at a
    string with an image; see C57 and C50 for what they do *)
Definition left_out (t : ctoken) : bool :=
  match t with
  | TComment v => match args_text v with Some _ => true | None => false end
  | TString v => match image_data v with Some _ => true | None => false end
  | _ => false
  end.
Definition no_icons_or_images : manip ctoken cstate :=
  {| start_mark := fun t s => if left_out t then Raise ValueError else Ret (false, s); continue_mark := fun _ _ => Raise ValueError |}.
(** handlers/css.py 25-30 *)
Definition css_manips (p : str) (s : fs) (scan : bool) : list (manip ctoken cstate) :=
  [lift_fst (nest (k_float_of K) (k_float_str K) (k_high_digit K) (k_int_high K) (k_css K) p s (k_pick K) (k_fuel K) scan); no_icons_or_images; lift_snd (version_urls p s scan)].
(** css/manipulate_and_serialize.py 11-39: the text written, the files the manipulators report
    and the files they read *)
Definition css_run (scan : bool) (p : str) (s : fs) : option (str * list str * list str) :=
  match s p with
  | None => None
  | Some text =>
      match tokenize (k_float_of K) (k_high_digit K) (k_int_high K) text with
      | (_, Some _) => None
      | (ts, None) =>
          match pump (css_manips p s scan) (k_fuel K) ts (new_builder (nest_init, v_init)) with
          | Raise _ => None
          | Ret (out, b) =>
              let imports := n_seen (fst (b_st b)) in let urls := v_seen (snd (b_st b)) in
              if existsb (starts_with (lit "/")) imports then None
              else Some (serialize_many (k_float_str K) out, imports ++ urls, p :: map out_file imports ++ urls)
          end
      end
  end.
(** html/manipulate_and_serialize.py 11-42 and template.py 263-276 (the stack must be empty): the
    text written, the files the manipulators report and the files they read *)
Definition page_run (scan : bool) (p : str) (s : fs) : option (str * list str * list str) :=
  match s p with
  | None => None
  | Some text =>
      match pump (page_manips (k_host K) p (k_fragment K) (k_show K) s scan) (k_fuel K) (k_document K text) (new_builder (h_init p [])) with
      | Raise _ => None
      | Ret (out, b) =>
          let st := b_st b in
          match t_stack st with
          | _ :: _ => None
          | [] =>
              if existsb (starts_with (lit "/")) (links st) || existsb is_out (t_seen st) then None
              else Some (k_write K out ++ [10%N], links st ++ t_seen st, p :: map (fun x => out_file x ++ lit ".hash") (links st) ++ t_seen st)
          end
      end
  end.
(** handlers/js.py, css.py and html.py: the text written, the files reported and the files read *)
Definition edit_file (scan : bool) (p : str) (s : fs) : option (str * list str * list str) :=
  match build_with (c_relpath c) p with
  | Script => match js_run scan p s with Some (out, seen) => Some (out, seen, p :: map (hash_file (k_cwd K)) seen) | None => None end
  | Stylesheet => css_run scan p s
  | Html => page_run scan p s
  | _ => None
  end.
(** handlers/js.py 60-91, css.py 66-95 and html.py 82-118; [os.path.join] with None raises
    TypeError *)
Definition edited_build (p : str) (s : fs) : option build_result :=
  match copy_target p with
  | None => None
  | Some t => match edit_file false p s with
              | None => None
              | Some (out, seen, _) => then_ (Some (mkBuild seen [(t, out)] [])) s (hash_file_of t)
              end
  end.
(** handlers/js.py 34-57, css.py 41-63 and html.py 53-79 *)
Definition edited_scan (p : str) (s : fs) : option scan_result :=
  match edit_file true p s with
  | None => None
  | Some (_, seen, _) => Some (mkScan seen (produces (copy_scan p) ++ produces (hash_scan p)))
  end.
(** handlers/html.py 57-59 and 86-88: other html files, as the partials, have no outputs *)
Definition page_scan (p : str) (s : fs) : option scan_result := match copy_target p with None => Some (mkScan [] []) | Some _ => edited_scan p s end.
Definition page_build (p : str) (s : fs) : option build_result := match copy_target p with None => Some (mkBuild [] [] []) | Some _ => edited_build p s end.
(** scan_file.py 28-39 *)
Definition file_scan (p : str) (s : fs) : option scan_result :=
  match scan_with (c_relpath c) p with
  | JsConstants => match constants_scan c p with Ret r => Some (mkScan (dependencies r) (produces r)) | Raise _ => None end
  | Script | Stylesheet => edited_scan p s
  | Html => page_scan p s
  | CopyAndHash => Some (mkScan (dependencies (copy_and_hash_scan p)) (produces (copy_and_hash_scan p)))
  | _ => None
  end.
(** build_file.py 35-50 *)
Definition file_build (p : str) (s : fs) : option build_result :=
  match build_with (c_relpath c) p with
  | JsConstants => constants_file_build p s
  | Script | Stylesheet => edited_build p s
  | Html => page_build p s
  | CopyAndHash => plain_build p s
  | _ => None
  end.
End Files.
