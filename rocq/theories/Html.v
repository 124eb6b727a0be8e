(** Model of the html pipeline: build/html/token.py, build/html/manips/link_rel_canonical.py,
    link_hash.py, outline.py and template.py.

    Simplifications: the namespace of attributes is left out; it is None for all attributes of
    html elements, others occur in svg and mathml only.  ImagesManipulator is left out; it
    declines every token but comments of the form [IMAGE: ...].  [relpath]s are posix paths;
    the file system is that of [Handlers], where a path is looked up as written. *)
From Verif Require Import Base Graph Json PyPath PyNorm CssVersion Builder Handlers OutlineData.
From Coq Require Import String ZArith NArith Bool List.
Import ListNotations.
Open Scope list_scope.
Open Scope N_scope.

(** token.py 6-32: the tokens of html5lib's tree walker; [HOther] is any other token (Doctype) *)
Inductive htoken :=
| HStart (name : str) (attrs : list (str * str)) | HEnd (name : str) | HEmpty (name : str) (attrs : list (str * str))
| HChars (text : str) | HSpace (text : str) | HComment (text : str) | HOther (text : str).

(** sorted(), on str: by code points *)
Fixpoint str_leb (a b : str) : bool :=
  match a, b with
  | [], _ => true
  | _ :: _, [] => false
  | x :: a', y :: b' => if x <? y then true else if y <? x then false else str_leb a' b'
  end.
Fixpoint insert_attr (k v : str) (l : list (str * str)) : list (str * str) :=
  match l with [] => [(k, v)] | (k', v') :: r => if str_leb k k' then (k, v) :: l else (k', v') :: insert_attr k v r end.
(** dict((k, d[k]) for k in sorted(d.keys())) *)
Definition sort_attrs (d : list (str * str)) : list (str * str) := fold_right (fun kv l => insert_attr (fst kv) (snd kv) l) [] d.

(** what json.loads makes of objects: a dictionary, in which the last value of a key counts *)
Fixpoint jnorm (v : json) : json :=
  match v with
  | JList l => JList (map jnorm l)
  | JObj l => JObj (fold_left (fun d kv => dset (fst kv) (jnorm (snd kv)) d) l [])
  | _ => v
  end.
(** template.py 280-292 *)
Record frame := { fr_path : str; fr_vars : list (str * json) }.
(** outline.py 65-71; the text is what was written to the file so far *)
Record outlining := { o_script : bool; o_path : str; o_text : str; o_attrs : list (str * str) }.
(** the attributes of the manipulators that change, and the files.  In scan mode [links],
    [o_seen] and [t_seen] are [dependencies], [o_made] is [produces]; in build mode they are
    [children] and [produced] *)
Record hstate := {
  files : fs;
  links : list str;
  o_open : option outlining; scripts : N; styles : N; o_seen : list str; o_made : list str; o_reused : list str;
  t_stack : list frame; t_frame : frame; t_seen : list str }.
Definition h_init (relpath : str) (f : fs) : hstate :=
  {| files := f; links := []; o_open := None; scripts := 0; styles := 0; o_seen := []; o_made := []; o_reused := []; t_stack := []; t_frame := {| fr_path := relpath; fr_vars := [] |}; t_seen := [] |}.
Definition with_links (l : list str) (s : hstate) : hstate :=
  {| files := files s; links := l; o_open := o_open s; scripts := scripts s; styles := styles s; o_seen := o_seen s; o_made := o_made s; o_reused := o_reused s; t_stack := t_stack s; t_frame := t_frame s; t_seen := t_seen s |}.
Definition with_outline (o : option outlining) (i j : N) (s : hstate) : hstate :=
  {| files := files s; links := links s; o_open := o; scripts := i; styles := j; o_seen := o_seen s; o_made := o_made s; o_reused := o_reused s; t_stack := t_stack s; t_frame := t_frame s; t_seen := t_seen s |}.
Definition with_results (f : fs) (seen made used : list str) (s : hstate) : hstate :=
  {| files := f; links := links s; o_open := o_open s; scripts := scripts s; styles := styles s; o_seen := seen; o_made := made; o_reused := used; t_stack := t_stack s; t_frame := t_frame s; t_seen := t_seen s |}.
Definition with_frames (st : list frame) (fr : frame) (s : hstate) : hstate :=
  {| files := files s; links := links s; o_open := o_open s; scripts := scripts s; styles := styles s; o_seen := o_seen s; o_made := o_made s; o_reused := o_reused s; t_stack := st; t_frame := fr; t_seen := t_seen s |}.
Definition with_templates (l : list str) (s : hstate) : hstate :=
  {| files := files s; links := links s; o_open := o_open s; scripts := scripts s; styles := styles s; o_seen := o_seen s; o_made := o_made s; o_reused := o_reused s; t_stack := t_stack s; t_frame := t_frame s; t_seen := l |}.

Section Html.
(** [host]: context.host; [fragment]: tokenize(f, fragment=True) (html5lib and tokenizer.py);
    [show]: str() of a JSON number, given its text; the handlers for scripts and stylesheets *)
Context (host : option str) (relpath : str) (fragment : str -> list htoken) (show : str -> str).
Context (js_scan css_scan : str -> fs -> res scanned) (js_build css_build : str -> fs -> res (built * fs)).
Context (scan : bool).
Notation manip := (manip htoken hstate).

(** * link_rel_canonical.py *)
(** 102-127, without the other tags *)
Definition canonical_inner (t : htoken) : option (str * str * list (str * str)) :=
  match t with
  | HEmpty name attrs =>
      if str_eqb name (lit "link") then
        match dget (lit "rel") attrs with Some r => if str_eqb r (lit "canonical") then Some (name, lit "href", attrs) else None | None => None end
      else if str_eqb name (lit "meta") then
        match dget (lit "property") attrs with Some r => if str_eqb r (lit "og:url") then Some (name, lit "content", attrs) else None | None => None end
      else None
  | _ => None
  end.
(** 87-100; the result is the name, the attribute, its value and the other attributes *)
Definition canonical_tag (t : htoken) : option (str * str * option str * list (str * str)) :=
  match canonical_inner t with
  | None => None
  | Some (name, attr, attrs) =>
      let others := filter (fun kv => negb (str_eqb (fst kv) attr)) attrs in
      match dget attr attrs with
      | Some h => if starts_with (lit "http") h then None else Some (name, attr, Some h, others)
      | None => Some (name, attr, None, others)
      end
  end.
(** 57-68 *)
Definition canonical_start (t : htoken) (s : hstate) : res (bool * hstate) :=
  match canonical_tag t with
  | None => Ret (false, s)
  | Some _ => if scan then match host with None => Raise MissingConfigurationException | Some _ => Ret (false, s) end else Ret (true, s)
  end.
(** 70-85 *)
Definition canonical_continue (t : htoken) (s : hstate) : res (option (list htoken) * hstate) :=
  let h := match host with Some h => h | None => lit "None" end in
  match canonical_tag t with
  | None => Raise AttributeError
  | Some (name, attr, href, others) =>
      let new_href := match href with
                      | None => lit "https://" ++ h ++ lit "/" ++ skipn (length (lit "src/public") + 1) relpath
                      | Some href => lit "https://" ++ h ++ href
                      end in
      Ret (Some [HEmpty name (sort_attrs (dset attr new_href others))], s)
  end.
Definition canonical : manip := {| start_mark := canonical_start; continue_mark := canonical_continue |}.

(** * link_hash.py *)
(** 165-200; the result is the attribute, the path and the attributes without href *)
Definition link_dependency (t : htoken) : option (str * str * list (str * str)) :=
  let found attr attrs :=
    match dget attr attrs with
    | Some (c :: path) => if (c =? 47) && negb (existsb (fun c => (c =? 63) || (c =? 35)) (c :: path)) then Some (attr, path, filter (fun kv => negb (str_eqb (fst kv) (lit "href"))) attrs) else None
    | _ => None
    end in
  match t with
  | HEmpty name attrs =>
      if str_eqb name (lit "link") then
        match dget (lit "rel") attrs with
        | Some r => if str_eqb r (lit "stylesheet") || str_eqb r (lit "preload") then found (lit "href") attrs else None
        | None => None
        end
      else None
  | HStart name attrs => if str_eqb name (lit "script") then found (lit "src") attrs else None
  | _ => None
  end.
(** 116-129 *)
Definition link_start (t : htoken) (s : hstate) : res (bool * hstate) :=
  match link_dependency t with
  | None => Ret (false, s)
  | Some (_, path, _) => Ret (negb scan, with_links (set_add (join_path (lit "src") [lit "public"; path]) (links s)) s)
  end.
(** 131-163.  The new attributes are those of [attributes] and the link, sorted *)
Definition link_continue (t : htoken) (s : hstate) : res (option (list htoken) * hstate) :=
  match link_dependency t with
  | None => Raise AttributeError
  | Some (attr, path, attributes) =>
      match dget (join_path (lit "out") [lit "www"; path] ++ lit ".hash") (files s) with
      | None => Raise AssertionError
      | Some h =>
          let new_href := lit "/" ++ path ++ lit "?" ++ urlencode [(lit "v", strip h); (lit "pv", PROCESSOR_VERSION)] in
          let data := sort_attrs (dset attr new_href attributes) in
          Ret (Some [match t with HStart name _ => HStart name data | HEmpty name _ => HEmpty name data | t => t end], s)
      end
  end.
Definition link_hash : manip := {| start_mark := link_start; continue_mark := link_continue |}.

(** * outline.py *)
(** 203-211 *)
Definition inline_script (t : htoken) : option (list (str * str)) :=
  match t with HStart name attrs => if str_eqb name (lit "script") && negb (dmem (lit "src") attrs) then Some attrs else None | _ => None end.
Definition inline_style (t : htoken) : option (list (str * str)) :=
  match t with HStart name attrs => if str_eqb name (lit "style") then Some attrs else None | _ => None end.
(** 50-63 *)
Definition src_folder (kind : str) : str := join_path (lit "src") [lit "public"; kind; lit "gen"; path_in_gen relpath].
Definition out_folder (kind : str) : str := join_path (lit "out") [lit "www"; kind; lit "gen"; path_in_gen relpath].
(** 73-77 *)
Definition outline_start (t : htoken) (s : hstate) : res (bool * hstate) :=
  Ret (match inline_script t, inline_style t with None, None => false | _, _ => true end, s).
(** 80-116.  Line 111: the loop over the keys of a style tag's attributes fails at the first *)
Definition outline_open (t : htoken) (s : hstate) : res (option (list htoken) * hstate) :=
  match inline_script t with
  | Some attrs =>
      let i := scripts s + 1 in
      Ret (None, with_outline (Some {| o_script := true; o_path := join2 (src_folder (lit "js")) (print_N i ++ lit ".js"); o_text := []; o_attrs := attrs |}) i (styles s) s)
  | None =>
      match inline_style t with
      | Some (_ :: _) => Raise TypeError
      | Some [] =>
          let j := styles s + 1 in
          Ret (None, with_outline (Some {| o_script := false; o_path := join2 (src_folder (lit "css")) (print_N j ++ lit ".css"); o_text := []; o_attrs := [] |}) (scripts s) j s)
      | None => Raise ValueError
      end
  end.
(** 118-134: the handler of the file, and the removal of the file *)
Definition outline_handle (o : outlining) (s : hstate) : res hstate :=
  let f := dset (o_path o) (o_text o) (files s) in
  match
    (if scan
     then match (if o_script o then js_scan else css_scan) (o_path o) f with
          | Raise e => Raise e
          | Ret r => Ret (f, set_update (dependencies r) (o_seen s), set_update (produces r) (o_made s), o_reused s)
          end
     else match (if o_script o then js_build else css_build) (o_path o) f with
          | Raise e => Raise e
          | Ret (r, f) => Ret (f, set_update (children r) (o_seen s), set_update (produced r) (o_made s), set_update (reused r) (o_reused s))
          end)
  with
  | Raise e => Raise e
  | Ret (f, seen, made, used) =>
      if dmem (o_path o) f then Ret (with_results (ddel (o_path o) f) seen made used s) else Raise FileNotFoundError
  end.
(** 148-196; the empty folders (136-146) are not modelled *)
Definition outline_close (o : outlining) (s : hstate) : res (option (list htoken) * hstate) :=
  match outline_handle o s with
  | Raise e => Raise e
  | Ret s =>
      let target := skipn (length (lit "src/public")) (o_path o) in
      let out_path := if o_script o then join2 (out_folder (lit "js")) (print_N (scripts s) ++ lit ".js") else join2 (out_folder (lit "css")) (print_N (styles s) ++ lit ".css") in
      match (if scan then Ret (target ++ lit "?v=tmp&pv=1")
             else match dget (out_path ++ lit ".hash") (files s) with
                  | None => Raise FileNotFoundError
                  | Some h => Ret (target ++ lit "?" ++ urlencode [(lit "v", h); (lit "pv", PROCESSOR_VERSION)])
                  end) with
      | Raise e => Raise e
      | Ret target =>
          let attrs := dset (if o_script o then lit "src" else lit "href") target (o_attrs o) in
          let data := sort_attrs (if o_script o then attrs else dset (lit "rel") (lit "stylesheet") attrs) in
          Ret (Some (if o_script o then [HStart (lit "script") data; HEnd (lit "script")] else [HEmpty (lit "link") data]), with_outline None (scripts s) (styles s) s)
      end
  end.
(** 79-201 *)
Definition outline_continue (t : htoken) (s : hstate) : res (option (list htoken) * hstate) :=
  match o_open s with
  | None => outline_open t s
  | Some o =>
      let add x := Ret (None, with_outline (Some {| o_script := o_script o; o_path := o_path o; o_text := o_text o ++ x; o_attrs := o_attrs o |}) (scripts s) (styles s) s) in
      match t with
      | HEnd _ => outline_close o s
      | HChars x | HSpace x => add x
      | _ => Raise AssertionError
      end
  end.
Definition outline : manip := {| start_mark := outline_start; continue_mark := outline_continue |}.

(** * template.py *)
(** 14-21: [\s*\[\s*NAME\s*:\s+(args)\]\s*], where the args of STACK have no newline *)
Definition rule_args (dotall : bool) (name s : str) : option str :=
  match lstrip s with
  | c :: s1 =>
      if negb (c =? 91) then None
      else let s2 := lstrip s1 in
      if negb (starts_with name s2) then None
      else match lstrip (skipn (length name) s2) with
           | d :: w :: s3 =>
               if negb (d =? 58) || negb (py_space w) then None
               else match lstrip (rev (lstrip s3)) with
                    | e :: r => if negb (e =? 93) then None else if negb dotall && existsb (N.eqb 10) r then None else Some (rev r)
                    | [] => None
                    end
           | _ => None
           end
  | [] => None
  end.
(** 234-258 *)
Definition get_command (dotall : bool) (name : str) (t : htoken) : option (str * list json) :=
  match t with
  | HComment s =>
      match rule_args dotall name s with
      | None => None
      | Some args => match option_map jnorm (json_load args) with Some (JList (JStr c :: l)) => Some (c, l) | _ => None end
      end
  | _ => None
  end.
Definition stack_command : htoken -> option (str * list json) := get_command false (lit "STACK").
Definition template_command : htoken -> option (str * list json) := get_command true (lit "TEMPLATE").
(** 66-75 *)
Definition template_start (t : htoken) (s : hstate) : res (bool * hstate) :=
  Ret (match stack_command t, template_command t with None, None => false | _, _ => true end, s).
(** 87-125 and 156-190 *)
Definition handle_stack (c : str) (l : list json) (s : hstate) : res (list htoken * hstate) :=
  let fr := t_frame s in
  match (if str_eqb c (lit "push") then match l with JStr p :: _ => Some p | _ => None end else None) with
  | Some p => Ret ([], with_frames (fr :: t_stack s) {| fr_path := p; fr_vars := [] |} s)
  | None =>
      if str_eqb c (lit "pop") then
        match t_stack s with [] => Raise AssertionError | fr :: st => Ret ([], with_frames st fr s) end
      else if str_eqb c (lit "define") then
        match l with
        | [JStr k; v] => Ret ([], with_frames (t_stack s) {| fr_path := fr_path fr; fr_vars := dset k v (fr_vars fr) |} s)
        | _ => Ret ([], s)
        end
      else if str_eqb c (lit "retrieve") then
        match l with
        | [JStr (k0 :: k)] =>
            match dget (k0 :: k) (fr_vars fr) with
            | Some (JStr x) => Ret ([HChars x], s)
            | Some (JNum raw) => Ret ([HChars (show raw)], s)
            | Some (JBool b) => Ret ([HChars (if b then lit "True" else lit "False")], s)
            | _ => Raise AssertionError
            end
        | _ => Ret ([], s)
        end
      else Ret ([], s)
  end.
(** 217-228 *)
Definition resolve_variable (vars : list (str * json)) (v : json) : json :=
  match v with
  | JObj l =>
      match dget (lit "type") l, dget (lit "name") l with
      | Some (JStr ty), Some (JStr n) => if str_eqb ty (lit "variable") then match dget n vars with Some x => x | None => v end else v
      | _, _ => v
      end
  | _ => v
  end.
(** 192-232 *)
Definition template_import (fr : frame) (c : str) (l : list json) : option (str * list (str * json)) :=
  match (match l with [] => Some [] | JObj vars :: _ => Some vars | _ => None end) with
  | None => None
  | Some vars =>
      let path := match c with
                  | c0 :: c1 => if c0 =? 47 then join_path (lit "src") [lit "partials"; c1] else join2 (fr_path fr) c
                  | [] => join2 (fr_path fr) c
                  end in
      Some (path, map (fun kv => (fst kv, resolve_variable (fr_vars fr) (snd kv))) vars)
  end.
(** f"[STACK: {json.dumps(...)}]" *)
Definition stack_comment (l : list json) : htoken := HComment (lit "[STACK: " ++ dump (JList l) ++ lit "]").
(** 127-154 *)
Definition handle_template (c : str) (l : list json) (s : hstate) : res (list htoken * hstate) :=
  match template_import (t_frame s) c l with
  | None => Ret ([], s)
  | Some (path, vars) =>
      let s := with_templates (set_add path (t_seen s)) s in
      match dget path (files s) with
      | None => Raise FileNotFoundError
      | Some text =>
          Ret (stack_comment [JStr (lit "push"); JStr path] :: map (fun kv => stack_comment [JStr (lit "define"); JStr (fst kv); snd kv]) vars
               ++ fragment text ++ [stack_comment [JStr (lit "pop")]], s)
      end
  end.
(** 77-86 *)
Definition template_continue (t : htoken) (s : hstate) : res (option (list htoken) * hstate) :=
  let some r := match r with Raise e => Raise e | Ret (ts, s) => Ret (Some ts, s) end in
  match stack_command t with
  | Some (c, l) => some (handle_stack c l s)
  | None => match template_command t with Some (c, l) => some (handle_template c l s) | None => Ret (Some [], s) end
  end.
Definition template : manip := {| start_mark := template_start; continue_mark := template_continue |}.

(** handlers/html.py 38-50, without ImagesManipulator *)
Definition manipulators : list manip := [canonical; link_hash; outline; template].
End Html.
