(** Model of /repo/vanillaplusjs/build/css/manips/icons/manip.py (whole file).

    The file system is that of [Handlers]: paths relative to [context.folder].  A file is
    the text that python reads from it (universal newlines are not modelled).  The two
    attributes of each mode are kept in one record: [i_seen] is [dependencies] in scan mode
    and [children] in build mode, [i_made] is [produces] or [produced].  The warning of
    lines 93-99 is not modelled. *)
From Verif Require Import Base Graph PyPath PyNorm Css CssVersion Builder Handlers IconColor IconParse.
From Coq Require Import String ZArith NArith Bool List.
Import ListNotations.
Open Scope list_scope.
Open Scope N_scope.

(** settings.py 38-53 *)
Record icon_settings := { color_map : list (str * color); icon_sizes : list str; default_buttons : option settings }.
(** the values of [button_by_identifier]: line 544 may put characters there *)
Inductive entry := EButton (b : setting) | EText (s : str).
Record buttons := mkButtons { plain_button : option setting; named_buttons : list (str * entry) }.
(** command.py 7-33 after 567-569 *)
Record request := mkRequest { r_name : str; r_initial : str; r_colors : list str; r_sizes : list str; r_buttons : option buttons }.
Record istate := { i_seen : list str; i_made : list str; i_reused : list str; i_files : fs }.

(** str.replace, [skip] characters of a match being left *)
Fixpoint replace_from (old new : str) (skip : nat) (s : str) : str :=
  match s with
  | [] => []
  | c :: r =>
      match skip with
      | S k => replace_from old new k r
      | O => if starts_with old s then new ++ replace_from old new (length old - 1) r else c :: replace_from old new 0 r
      end
  end.
Definition replace (old new s : str) : str := replace_from old new 0 s.

(** * 17-19: the regular expression *)
Definition after (w s : str) : option str := if starts_with w s then Some (skipn (length w) s) else None.
Definition after_space (s : str) : option str := match s with c :: r => if py_space c then Some (lstrip r) else None | [] => None end.
Definition obind {A B} (a : option A) (k : A -> option B) : option B := match a with Some x => k x | None => None end.
Definition args_text (v : str) : option str :=
  obind (after (lit "!") (lstrip v)) (fun s =>
  obind (after (lit "PREPROCESSOR") (lstrip s)) (fun s =>
  obind (after (lit ":") (lstrip s)) (fun s =>
  obind (after_space s) (fun s =>
  obind (after (lit "icon") s) after_space)))).

Section Resolve.
Context (cfg : icon_settings).
Definition is_color (c : str) : bool := dmem c (color_map cfg).
Definition is_size (s : str) : bool := mem s (icon_sizes cfg).
(** the keys of [dict((x, None) for x in l if known x)] *)
Definition pick (known : str -> bool) (l : list str) : list str :=
  map fst (fold_left (fun d x => if known x then dset x tt d else d) l []).
(** 535-541 *)
Definition is_setting_bad (b : setting) : bool :=
  negb (is_color (active b)) || negb (is_color (hover b)) || negb (is_color (disabled b)).
(** 556-561: iterating over the dictionary gives its keys, which are then unpacked into two *)
Fixpoint repack (purge : list str) (keys : list str) (d : list (str * entry)) : res (list (str * entry)) :=
  match keys with
  | [] => Ret d
  | [a; b] :: r => if mem [a] purge then repack purge r d else repack purge r (dset [a] (EText [b]) d)
  | _ => Raise ValueError
  end.
(** 532-565 *)
Definition resolve_buttons (b : settings) : res buttons :=
  let plain := match by_default b with Some s => if is_setting_bad s then None else Some s | None => None end in
  let purge := map fst (filter (fun e => is_setting_bad (snd e)) (by_name b)) in
  match purge with
  | [] => Ret (mkButtons plain (map (fun e => (fst e, EButton (snd e))) (by_name b)))
  | _ => match repack purge (map fst (by_name b)) [] with Raise e => Raise e | Ret d => Ret (mkButtons plain d) end
  end.
(** 497-569 *)
Definition resolve (c : command) : res (option request) :=
  if negb (is_color (initial c)) then Ret None
  else
    let cs := match colors c with Some l => pick is_color l | None => map fst (color_map cfg) end in
    let ss := match sizes c with Some l => pick is_size l | None => icon_sizes cfg end in
    match cs, ss with
    | [], _ | _, [] => Ret None
    | _, _ =>
        let b := match btn c with NoButton => None | DefaultButton => default_buttons cfg | Buttons s => Some s end in
        match b with
        | None => Ret (Some (mkRequest (icon c) (initial c) cs ss None))
        | Some s => match resolve_buttons s with
                    | Raise e => Raise e
                    | Ret b => Ret (Some (mkRequest (icon c) (initial c) cs ss (Some b)))
                    end
        end
    end.
End Resolve.

(** 77, 575 *)
Definition output_svg (name color : str) : str := join2 (output_folder name) (color ++ lit ".svg").
(** 571-592 *)
Definition scan_command (css_file relpath : str) (r : request) (s : istate) : istate :=
  let s := if str_eqb relpath css_file then s
           else {| i_seen := set_add css_file (i_seen s); i_made := i_made s; i_reused := i_reused s; i_files := i_files s |} in
  let s := {| i_seen := set_add (input_icon (r_name r)) (i_seen s); i_made := i_made s; i_reused := i_reused s; i_files := i_files s |} in
  fold_left (fun s color =>
    let svg := output_svg (r_name r) color in let h := join2 (output_folder (r_name r)) (color ++ lit ".svg.hash") in
    {| i_seen := set_add h (i_seen s); i_made := set_add h (set_add svg (i_made s)); i_reused := i_reused s; i_files := i_files s |}) (r_colors r) s.

Definition set_update (l : list str) (s : list str) : list str := fold_left (fun s x => set_add x s) l s.
Section Build.
Context (sha : str -> str) (cfg : icon_settings).
Definition quoted (c : color) : str := lit """" ++ to_hex c ++ lit """".
(** 80-113; [svg]: the source, once it is read *)
Fixpoint export (r : request) (svg : option str) (cs : list str) (s : istate) : res istate :=
  match cs with
  | [] => Ret s
  | color :: rest =>
      let out := output_svg (r_name r) color in
      if dmem out (i_files s) then
        export r svg rest {| i_seen := i_seen s; i_made := i_made s; i_reused := set_add out (i_reused s); i_files := i_files s |}
      else
        match (match svg with Some t => Some t | None => dget (input_icon (r_name r)) (i_files s) end) with
        | None => Raise FileNotFoundError
        | Some text =>
            match dget (r_initial r) (color_map cfg), dget color (color_map cfg) with
            | Some c0, Some c1 =>
                match hash_build sha out (dset out (replace (quoted c0) (quoted c1) text) (i_files s)) with
                | Raise e => Raise e
                | Ret (h, f) =>
                    export r (Some text) rest
                      {| i_seen := set_update (children h) (i_seen s); i_made := set_update (produced h) (set_add out (i_made s));
                         i_reused := set_update (reused h) (i_reused s); i_files := f |}
                end
            | _, _ => Raise KeyError
            end
        end
  end.
End Build.

Section Rules.
Context {F : Type}.
Notation token := (@token F).
(** 121-193 *)
Definition icon_rule (name size color : str) : list token :=
  [
    TDelim (lit "."); TIdent (lit "icon-" ++ name ++ lit "-" ++ size ++ lit "-" ++ color); TWhitespace (lit " "); TLCurly;
    TWhitespace [10; 32; 32; 32; 32]; TIdent (lit "background"); TColon; TWhitespace (lit " "); TIdent (lit "no-repeat"); TWhitespace (lit " "); TIdent (lit "center"); TWhitespace (lit " "); TIdent (lit "center"); TSemicolon;
    TWhitespace [10; 32; 32; 32; 32]; TIdent (lit "display"); TColon; TWhitespace (lit " "); TIdent (lit "inline-block"); TSemicolon;
    TWhitespace [10; 32; 32; 32; 32]; TIdent (lit "vertical-align"); TColon; TWhitespace (lit " "); TIdent (lit "middle"); TSemicolon;
    TWhitespace [10; 32; 32; 32; 32]; TIdent (lit "content"); TColon; TWhitespace (lit " "); TString []; TSemicolon;
    TWhitespace [10; 32; 32; 32; 32]; TIdent (lit "width"); TColon; TWhitespace (lit " "); TFunction (lit "var"); TIdent (lit "--icon-size-" ++ size); TRParen; TSemicolon;
    TWhitespace [10; 32; 32; 32; 32]; TIdent (lit "height"); TColon; TWhitespace (lit " "); TFunction (lit "var"); TIdent (lit "--icon-size-" ++ size); TRParen; TSemicolon;
    TWhitespace [10; 32; 32; 32; 32]; TIdent (lit "background-size"); TColon; TWhitespace (lit " "); TPercentage (NInt 100) false; TWhitespace (lit " "); TPercentage (NInt 100) false; TSemicolon;
    TWhitespace [10; 32; 32; 32; 32]; TIdent (lit "background-image"); TColon; TWhitespace (lit " "); TFunction (lit "url"); TString (web_path name color); TRParen; TSemicolon;
    TWhitespace [10]; TRCurly
  ].
(** 114-193 *)
Definition icon_rules (r : request) : list token :=
  fold_left (fun out sc => (match out with [] => [] | _ => out ++ [TWhitespace [10; 10]] end) ++ icon_rule (r_name r) (fst sc) (snd sc))
    (list_prod (r_sizes r) (r_colors r)) [].
(** 237-451 *)
Definition button_rules (name size suffix : str) (b : setting) : list token :=
  [
    TWhitespace [10; 10]; TDelim (lit "."); TIdent (lit "icon-btn-" ++ name ++ lit "-" ++ size ++ suffix); TWhitespace (lit " "); TLCurly;
    TWhitespace [10; 32; 32; 32; 32]; TIdent (lit "-webkit-appearance"); TColon; TWhitespace (lit " "); TIdent (lit "none"); TSemicolon;
    TWhitespace [10; 32; 32; 32; 32]; TIdent (lit "appearance"); TColon; TWhitespace (lit " "); TIdent (lit "none"); TSemicolon;
    TWhitespace [10; 32; 32; 32; 32]; TIdent (lit "background"); TColon; TWhitespace (lit " "); TIdent (lit "transparent"); TSemicolon;
    TWhitespace [10; 32; 32; 32; 32]; TIdent (lit "border"); TColon; TWhitespace (lit " "); TIdent (lit "none"); TSemicolon;
    TWhitespace [10; 32; 32; 32; 32]; TIdent (lit "border-radius"); TColon; TWhitespace (lit " "); TIdent (lit "0"); TSemicolon;
    TWhitespace [10; 32; 32; 32; 32]; TIdent (lit "box-shadow"); TColon; TWhitespace (lit " "); TIdent (lit "none"); TSemicolon;
    TWhitespace [10; 32; 32; 32; 32]; TIdent (lit "outline"); TColon; TWhitespace (lit " "); TIdent (lit "none"); TSemicolon;
    TWhitespace [10; 32; 32; 32; 32]; TIdent (lit "padding"); TColon; TWhitespace (lit " "); TIdent (lit "0"); TSemicolon;
    TWhitespace [10; 32; 32; 32; 32]; TIdent (lit "margin"); TColon; TWhitespace (lit " "); TIdent (lit "0"); TSemicolon;
    TWhitespace [10; 32; 32; 32; 32]; TIdent (lit "text-align"); TColon; TWhitespace (lit " "); TIdent (lit "center"); TSemicolon;
    TWhitespace [10; 32; 32; 32; 32]; TIdent (lit "display"); TColon; TWhitespace (lit " "); TIdent (lit "inline-block"); TSemicolon;
    TWhitespace [10; 32; 32; 32; 32]; TIdent (lit "cursor"); TColon; TWhitespace (lit " "); TIdent (lit "pointer"); TSemicolon;
    TWhitespace [10]; TRCurly;
    TWhitespace [10; 10]; TDelim (lit "."); TIdent (lit "icon-btn-" ++ name ++ lit "-" ++ size ++ suffix ++ lit ":disabled"); TWhitespace (lit " "); TLCurly;
    TWhitespace [10; 32; 32; 32; 32]; TIdent (lit "cursor"); TColon; TWhitespace (lit " "); TIdent (lit "not-allowed"); TSemicolon;
    TWhitespace [10]; TRCurly;
    TWhitespace [10; 10]; TDelim (lit "."); TIdent (lit "icon-btn-" ++ name ++ lit "-" ++ size ++ suffix ++ lit " .icon-btn--icon"); TWhitespace (lit " "); TLCurly;
    TWhitespace [10; 32; 32; 32; 32]; TIdent (lit "background"); TColon; TWhitespace (lit " "); TIdent (lit "no-repeat"); TWhitespace (lit " "); TIdent (lit "center"); TWhitespace (lit " "); TIdent (lit "center"); TSemicolon;
    TWhitespace [10; 32; 32; 32; 32]; TIdent (lit "display"); TColon; TWhitespace (lit " "); TIdent (lit "inline-block"); TSemicolon;
    TWhitespace [10; 32; 32; 32; 32]; TIdent (lit "vertical-align"); TColon; TWhitespace (lit " "); TIdent (lit "middle"); TSemicolon;
    TWhitespace [10; 32; 32; 32; 32]; TIdent (lit "content"); TColon; TWhitespace (lit " "); TString []; TSemicolon;
    TWhitespace [10; 32; 32; 32; 32]; TIdent (lit "width"); TColon; TWhitespace (lit " "); TFunction (lit "var"); TIdent (lit "--icon-size-" ++ size); TRParen; TSemicolon;
    TWhitespace [10; 32; 32; 32; 32]; TIdent (lit "height"); TColon; TWhitespace (lit " "); TFunction (lit "var"); TIdent (lit "--icon-size-" ++ size); TRParen; TSemicolon;
    TWhitespace [10; 32; 32; 32; 32]; TIdent (lit "background-size"); TColon; TWhitespace (lit " "); TPercentage (NInt 100) false; TWhitespace (lit " "); TPercentage (NInt 100) false; TSemicolon;
    TWhitespace [10; 32; 32; 32; 32]; TIdent (lit "background-image"); TColon; TWhitespace (lit " "); TFunction (lit "url"); TString (web_path name (active b)); TRParen; TSemicolon;
    TWhitespace [10]; TRCurly;
    TWhitespace [10; 10]; TDelim (lit "."); TIdent (lit "icon-btn-" ++ name ++ lit "-" ++ size ++ suffix ++ lit ":hover .icon-btn--icon"); TWhitespace (lit " "); TLCurly;
    TWhitespace [10; 32; 32; 32; 32]; TIdent (lit "background-image"); TColon; TWhitespace (lit " "); TFunction (lit "url"); TString (web_path name (hover b)); TRParen; TSemicolon;
    TWhitespace [10]; TRCurly;
    TWhitespace [10; 10]; TDelim (lit "."); TIdent (lit "icon-btn-" ++ name ++ lit "-" ++ size ++ suffix ++ lit ":disabled .icon-btn--icon"); TWhitespace (lit " "); TLCurly;
    TWhitespace [10; 32; 32; 32; 32]; TIdent (lit "background-image"); TColon; TWhitespace (lit " "); TFunction (lit "url"); TString (web_path name (disabled b)); TRParen; TSemicolon;
    TWhitespace [10]; TRCurly
  ].
(** 459-460 *)
Fixpoint named_rules (name size : str) (l : list (str * entry)) : res (list token) :=
  match l with
  | [] => Ret []
  | (iden, EButton b) :: rest =>
      match named_rules name size rest with Raise e => Raise e | Ret out => Ret (button_rules name size (lit "-" ++ iden) b ++ out) end
  | (_, EText _) :: _ => Raise AttributeError
  end.
(** 454-460 *)
Fixpoint all_buttons (name : str) (b : buttons) (sizes : list str) : res (list token) :=
  match sizes with
  | [] => Ret []
  | size :: rest =>
      match named_rules name size (named_buttons b) with
      | Raise e => Raise e
      | Ret named =>
          match all_buttons name b rest with
          | Raise e => Raise e
          | Ret out => Ret (match plain_button b with Some s => button_rules name size [] s | None => [] end ++ named ++ out)
          end
      end
  end.
Definition rules (r : request) : res (list token) :=
  match r_buttons r with
  | None => Ret (icon_rules r)
  | Some b => match all_buttons (r_name r) b (r_sizes r) with Raise e => Raise e | Ret out => Ret (icon_rules r ++ out) end
  end.
End Rules.

Section Manip.
Context {F : Type} (float_of : str -> option F) (high_digit : N -> bool) (int_high : str -> option Z).
Notation token := (@token F).
(** [css_file]: [context.default_css_file] *)
Context (sha : str -> str) (cfg : icon_settings) (css_file relpath : str).
(** 464-569 *)
Definition get_icon_command_args (t : token) : res (option request) :=
  match t with
  | TComment v =>
      match args_text v with
      | None => Ret None
      | Some a =>
          match command_of float_of high_digit int_high a with
          | Raise e => Raise e
          | Ret None => Ret None
          | Ret (Some c) => resolve cfg c
          end
      end
  | _ => Ret None
  end.
(** 58-68; [scan]: the mode *)
Definition i_start (scan : bool) (t : token) (s : istate) : res (bool * istate) :=
  match get_icon_command_args t with
  | Raise e => Raise e
  | Ret None => Ret (false, s)
  | Ret (Some r) => if scan then Ret (false, scan_command css_file relpath r s) else Ret (true, s)
  end.
(** 70-462 *)
Definition i_continue (t : token) (s : istate) : res (option (list token) * istate) :=
  match get_icon_command_args t with
  | Raise e => Raise e
  | Ret None => Raise AssertionError
  | Ret (Some r) =>
      let s := if str_eqb relpath css_file then s
               else {| i_seen := set_add css_file (i_seen s); i_made := i_made s; i_reused := i_reused s; i_files := i_files s |} in
      match export sha cfg r None (r_colors r) s with
      | Raise e => Raise e
      | Ret s => match rules r with Raise e => Raise e | Ret out => Ret (Some out, s) end
      end
  end.
Definition icons (scan : bool) : manip token istate := {| start_mark := i_start scan; continue_mark := i_continue |}.
(** 47-56 *)
Definition i_init (f : fs) : istate := {| i_seen := []; i_made := []; i_reused := []; i_files := f |}.
End Manip.
