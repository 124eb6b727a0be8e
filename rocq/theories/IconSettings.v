(** build/css/manips/icons/settings.py 56-216: the settings for icons, from
    vanillaplusjs.json and from the main style sheet. *)
From Verif Require Import Base Graph Json Css Handlers IconColor IconParse IconManip ImgMeta.
From Coq Require Import String ZArith NArith Bool List.
Import ListNotations.
Open Scope list_scope.
Open Scope N_scope.

(** * 62-132: the buttons *)
(** [d.get(k, default)]: [None] is python's None.  A colour that is not a string is kept by
    python; here it is outside the model. *)
Definition color_name (k : str) (d : list (str * json)) (default : str) : res (option str) :=
  match dget k d with
  | None => Ret (Some default)
  | Some JNull => Ret None
  | Some (JStr s) => Ret (Some s)
  | Some _ => Raise OutOfFuel
  end.
(** 76-97, 109-131 *)
Definition three_colors (d : list (str * json)) (default : setting) : res (option setting) :=
  bind (color_name (lit "active_color") d (active default)) (fun a =>
  bind (color_name (lit "hover_color") d (hover default)) (fun h =>
  bind (color_name (lit "disabled_color") d (disabled default)) (fun x =>
  Ret (match a, h, x with Some a, Some h, Some x => Some (mkSetting a h x) | _, _, _ => None end)))).
(** 62-66 *)
Definition standard_button : setting := mkSetting (lit "primary") (lit "primary-dark") (lit "disabled").
(** 70-97 *)
Definition load_default_button (icons : list (str * json)) : res (option setting) :=
  match dget (lit "default_button") icons with
  | Some JNull => Ret None
  | None => bind (three_colors [] standard_button) (fun o => Ret (Some (match o with Some b => b | None => standard_button end)))
  | Some (JObj d) => bind (three_colors d standard_button) (fun o => Ret (Some (match o with Some b => b | None => standard_button end)))
  | Some _ => Raise AttributeError
  end.
(** 107-132: the default of [get] is computed even if it is not used *)
Fixpoint load_named_buttons (default : option setting) (l : list (str * json)) (acc : list (str * setting)) : res (list (str * setting)) :=
  match l with
  | [] => Ret acc
  | (name, JObj d) :: r =>
      match default with
      | None => Raise AttributeError
      | Some b => bind (three_colors d b) (fun o => load_named_buttons default r (match o with Some x => dset name x acc | None => acc end))
      end
  | _ :: _ => Raise AttributeError
  end.
(** 58-132 *)
Definition load_buttons (config : list (str * json)) : res settings :=
  match dget (lit "icons") config with
  | None | Some JNull => Ret (mkSettings (Some standard_button) [])
  | Some (JObj icons) =>
      bind (load_default_button icons) (fun default =>
      match dget (lit "button_by_identifier") icons with
      | None | Some JNull => Ret (mkSettings default [])
      | Some (JObj l) => bind (load_named_buttons default l []) (fun named => Ret (mkSettings default named))
      | Some _ => Raise AttributeError
      end)
  | Some _ => Raise AttributeError
  end.

(** * 134-210: the style sheet
    The tokens that are left are the ones the generator has not given yet. *)
Section Sheet.
Context {F : Type} (plain : N -> N) (lower_high : N -> str).
Notation tok := (token (F := F)).
(** 141-145; [None]: StopIteration, or what the tokenizer raises *)
Fixpoint next_significant (l : list tok) : option (tok * list tok) :=
  match l with
  | [] => None
  | TWhitespace _ :: r | TComment _ :: r => next_significant r
  | t :: r => Some (t, r)
  end.
(** 151-157 *)
Fixpoint skip_block (level : nat) (l : list tok) : option (list tok) :=
  match l with
  | [] => None
  | TLCurly :: r => skip_block (S level) r
  | TRCurly :: r => match level with S (S k) => skip_block (S k) r | _ => Some r end
  | _ :: r => skip_block level r
  end.
(** 147-173: [token] is the head of [l]; what is left after the curly bracket of [:root].
    The fuel is more than the number of tokens. *)
Fixpoint find_root (fuel : nat) (l : list tok) : res (option (list tok)) :=
  match fuel with
  | O => Raise OutOfFuel
  | S k =>
      match l with
      | [] => Ret None
      | TLCurly :: r => match skip_block 1 r with Some r => find_root k r | None => Ret None end
      | TColon :: r =>
          match next_significant r with
          | None => Ret None
          | Some (TIdent v, r) =>
              if str_eqb v (lit "root") then
                match next_significant r with
                | None => Ret None
                | Some (TLCurly, r) => Ret (Some r)
                | Some (t, r) => find_root k (t :: r)
                end
              else find_root k (TIdent v :: r)
          | Some (t, r) => find_root k (t :: r)
          end
      | _ :: r => match next_significant r with Some (t, r) => find_root k (t :: r) | None => Ret None end
      end
  end.
(** 188-193: up to the right parenthesis *)
Fixpoint arguments (l : list tok) : option (list tok * list tok) :=
  match l with
  | [] => None
  | TWhitespace _ :: r | TComment _ :: r => arguments r
  | TRParen :: r => Some ([TRParen], r)
  | t :: r => match arguments r with Some (a, r) => Some (t :: a, r) | None => None end
  end.
(** 187-193 *)
Definition component_value (l : list tok) : option (list tok * list tok) :=
  match next_significant l with
  | None => None
  | Some (TFunction f, r) => match arguments r with Some (a, r) => Some (TFunction f :: a, r) | None => None end
  | Some (t, r) => Some ([t], r)
  end.
(** 201-207 *)
Definition note (name : str) (value : list tok) (acc : list (str * color) * list str) : res (list (str * color) * list str) :=
  let '(colors, sizes) := acc in
  if starts_with (lit "--col-") name then
    bind (interpret_as_color plain lower_high value) (fun o =>
    Ret (match o with Some c => dset (skipn 6 name) c colors | None => colors end, sizes))
  else if starts_with (lit "--icon-size-") name then Ret (colors, sizes ++ [skipn 12 name])
  else Ret acc.
(** 176-207; with [true] when the tokens ran out.  The fuel is the number of tokens. *)
Fixpoint declarations (fuel : nat) (l : list tok) (acc : list (str * color) * list str) : res ((list (str * color) * list str) * bool) :=
  match fuel with
  | O => Raise OutOfFuel
  | S k =>
      match next_significant l with
      | None => Ret (acc, true)
      | Some (TIdent name, l) =>
          match next_significant l with
          | None => Ret (acc, true)
          | Some (TColon, l) =>
              match component_value l with
              | None => Ret (acc, true)
              | Some (value, l) =>
                  match next_significant l with
                  | None => Ret (acc, true)
                  | Some (TSemicolon, l) =>
                      match next_significant l with
                      | None => Ret (acc, true)
                      | Some _ => bind (note name value acc) (declarations k l)
                      end
                  | Some _ => Ret (acc, false)
                  end
              end
          | Some _ => Ret (acc, false)
          end
      | Some _ => Ret (acc, false)
      end
  end.
(** 137-210, on what the tokenizer gives *)
Definition read_root (ts : list tok) (e : option exn) : res (list (str * color) * list str) :=
  let ended acc : res (list (str * color) * list str) := match e with None => Ret acc | Some x => Raise x end in
  match next_significant ts with
  | None => ended ([], [])
  | Some (t, r) =>
      match find_root (S (S (length ts))) (t :: r) with
      | Raise x => Raise x
      | Ret None => ended ([], [])
      | Ret (Some l) => bind (declarations (S (length l)) l ([], [])) (fun x => if snd x then ended (fst x) else Ret (fst x))
      end
  end.
End Sheet.

(** * 56-216 *)
Section Load.
Context {F : Type} (float_of : str -> option F) (high_digit : N -> bool) (int_high : str -> option Z).
Context (plain : N -> N) (lower_high : N -> str).
(** 134-210 *)
Definition load_sheet (f : fs) : res (list (str * color) * list str) :=
  match dget (lit "src/public/css/main.css") f with
  | None => Ret ([], [])
  | Some text => let '(ts, e) := tokenize float_of high_digit int_high text in read_root plain lower_high ts e
  end.
(** the keys of [dict((s, None) for s in sizes)] *)
Definition distinct (l : list str) : list str := map fst (fold_left (fun d s => dset s tt d) l []).
(** [config] is what json.load gives for the configuration file (58-59), which [build] has
    read before and found to be an object *)
Definition load_icon_settings (config : list (str * json)) (f : fs) : res icon_settings :=
  bind (load_buttons config) (fun b =>
  bind (load_sheet f) (fun x =>
  Ret {| color_map := fst x; icon_sizes := distinct (snd x); default_buttons := Some b |})).
End Load.
