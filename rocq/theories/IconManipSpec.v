(** Vocabulary for C57 and C58: what an icon command gives. *)
From Verif Require Import Base Graph PyPath Css Builder IconColor IconParse IconManip Handlers.
From Coq Require Import String ZArith NArith Bool List.
Import ListNotations.
Open Scope list_scope.
Open Scope N_scope.

(** [out] are the known elements of [l], each once, in the order of their first mention *)
Definition chosen (known : str -> Prop) (l out : list str) : Prop :=
  NoDup out /\ (forall x, In x out <-> In x l /\ known x) /\
  forall p x q, out = p ++ x :: q -> exists a b, l = a ++ x :: b /\ ~ In x a /\ forall y, In y p -> In y a.
Definition known_color (cfg : icon_settings) (c : str) : Prop := exists v, In (c, v) (color_map cfg).
Definition good_button (cfg : icon_settings) (b : setting) : Prop :=
  known_color cfg (active b) /\ known_color cfg (hover b) /\ known_color cfg (disabled b).
(** the buttons that a command asks for *)
Definition asked (cfg : icon_settings) (b : button) : option settings :=
  match b with NoButton => None | DefaultButton => default_buttons cfg | Buttons s => Some s end.

(** the colours and sizes a command asks for *)
Definition wanted_colors cfg c (out : list str) : Prop := match colors c with Some l => chosen (known_color cfg) l out | None => out = map fst (color_map cfg) end.
Definition wanted_sizes cfg c (out : list str) : Prop := match sizes c with Some l => chosen (fun s => In s (icon_sizes cfg)) l out | None => out = icon_sizes cfg end.

(** the comment of a command: [args] is what follows the word icon and the spaces after it *)
Definition blanks (w : str) : Prop := Forall (fun c => PyNorm.py_space c = true) w.
Definition icon_comment (v args : str) : Prop :=
  exists w1 w2 w3 w4 w5, blanks w1 /\ blanks w2 /\ blanks w3 /\ blanks w4 /\ blanks w5 /\ w4 <> [] /\ w5 <> [] /\
    (forall c r, args = c :: r -> PyNorm.py_space c = false) /\
    v = w1 ++ lit "!" ++ w2 ++ lit "PREPROCESSOR" ++ w3 ++ lit ":" ++ w4 ++ lit "icon" ++ w5 ++ args.

(** * The style sheet *)
Definition newline : str := [10].
Definition rule (selector : str) (declarations : list str) : str :=
  lit "." ++ selector ++ lit " {" ++ newline ++ flat_map (fun d => lit "    " ++ d ++ lit ";" ++ newline) declarations ++ lit "}".
Definition image (name color : str) : str := lit "background-image: url(""/img/icons/" ++ name ++ lit "/" ++ color ++ lit ".svg"")".
Definition box (name size color : str) : list str :=
  [lit "background: no-repeat center center"; lit "display: inline-block"; lit "vertical-align: middle"; lit "content: """"";
   lit "width: var(--icon-size-" ++ size ++ lit ")"; lit "height: var(--icon-size-" ++ size ++ lit ")"; lit "background-size: 100% 100%"; image name color].
Definition icon_css (name size color : str) : str := rule (lit "icon-" ++ name ++ lit "-" ++ size ++ lit "-" ++ color) (box name size color).
Definition button_css (name size suffix : str) (b : setting) : list str :=
  let n := lit "icon-btn-" ++ name ++ lit "-" ++ size ++ suffix in
  [rule n [lit "-webkit-appearance: none"; lit "appearance: none"; lit "background: transparent"; lit "border: none"; lit "border-radius: 0"; lit "box-shadow: none";
           lit "outline: none"; lit "padding: 0"; lit "margin: 0"; lit "text-align: center"; lit "display: inline-block"; lit "cursor: pointer"];
   rule (n ++ lit ":disabled") [lit "cursor: not-allowed"];
   rule (n ++ lit " .icon-btn--icon") (box name size (active b));
   rule (n ++ lit ":hover .icon-btn--icon") [image name (hover b)];
   rule (n ++ lit ":disabled .icon-btn--icon") [image name (disabled b)]].
(** the rules of a command, one after the other *)
Definition icon_sheet (name : str) (sizes colors : list str) (plain : option setting) (named : list (str * setting)) : list str :=
  flat_map (fun size => map (icon_css name size) colors) sizes ++
  flat_map (fun size => match plain with Some b => button_css name size [] b | None => [] end ++
                        flat_map (fun nb => button_css name size (lit "-" ++ fst nb) (snd nb)) named) sizes.
Definition separated (rules : list str) : str := match rules with [] => [] | r :: rest => r ++ flat_map (fun x => newline ++ newline ++ x) rest end.
(** printable ASCII, neither a quote nor a backslash *)
Definition plain_char (c : N) : Prop := 32 <= c <= 126 /\ c <> 34 /\ c <> 92.
Definition plain_text (s : str) : Prop := Forall plain_char s.
Definition button_colors (b : setting) : list str := [active b; hover b; disabled b].
Definition colors_of_buttons (plain : option setting) (named : list (str * setting)) : list str :=
  match plain with Some b => button_colors b | None => [] end ++ flat_map (fun nb => button_colors (snd nb)) named.
Definition named_ones (l : list (str * setting)) : list (str * entry) := map (fun e => (fst e, EButton (snd e))) l.
Definition some_buttons (plain : option setting) (named : list (str * setting)) (b : option buttons) : Prop :=
  b = Some (mkButtons plain (named_ones named)) \/ (b = None /\ plain = None /\ named = []).

(** * The images *)
(** the file of a path of the site *)
Definition site_file (path : str) : str := lit "out/www" ++ path.
Definition svg_file (name color : str) : str := site_file (lit "/img/icons/" ++ name ++ lit "/" ++ color ++ lit ".svg").
Definition hash_file (name color : str) : str := svg_file name color ++ lit ".hash".
Definition source_file (name : str) : str := lit "src/public/img/icons/" ++ name ++ lit ".svg".
(** a file name: not empty, without slash *)
Definition file_name (s : str) : Prop := s <> [] /\ ~ In 47 s.
(** [s] with the occurrences of [old] replaced, from left to right *)
Inductive replaced (old new : str) : str -> str -> Prop :=
| RepNil : replaced old new [] []
| RepHere s t : replaced old new s t -> replaced old new (old ++ s) (new ++ t)
| RepSkip c s t : (forall r, c :: s <> old ++ r) -> replaced old new s t -> replaced old new (c :: s) (c :: t).
(** a colour between double quotes, as it stands in an svg *)
Definition attribute (c : color) (s : str) : Prop := s = lit """" ++ to_hex c ++ lit """".
Definition recolored (from to : color) (svg out : str) : Prop :=
  exists old new, attribute from old /\ attribute to new /\ replaced old new svg out.
(** an url written in a style sheet *)
Definition has_url {F} (ts : list (@token F)) (url : str) : Prop := exists a b, ts = a ++ TFunction (lit "url") :: TString url :: b.

(** * A style sheet *)
(** a token of the sheet asks for [r], according to [get] *)
Definition requested {F} (get : @token F -> res (option request)) (ts : list (@token F)) (r : request) : Prop := exists t, In t ts /\ get t = Ret (Some r).
(** the names in a request can be used as file names *)
Definition usable (r : request) : Prop := file_name (r_name r) /\ forall c, In c (r_colors r) -> ~ In 47 c.
Definition file_of (r : request) (p : str) : Prop := exists c, In c (r_colors r) /\ (p = svg_file (r_name r) c \/ p = hash_file (r_name r) c).
(** the builder before the first token *)
Definition beginning {F} (f : fs) : builder (@token F) istate := {| b_out := []; b_mark := None; b_st := i_init f |}.
