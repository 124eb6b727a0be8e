(** Vocabulary for C65: style sheets with a [:root] rule. *)
From Verif Require Import Base Graph Json Css IconColor IconParse IconManip.
From Coq Require Import String ZArith NArith Bool List.
Import ListNotations.
Open Scope list_scope.
Open Scope N_scope.

Section Spec.
Context {F : Type}.
Notation tok := (token (F := F)).
(** spaces and comments *)
Definition gap (t : tok) : Prop := match t with TWhitespace _ | TComment _ => True | _ => False end.
Definition gaps (l : list tok) : Prop := Forall gap l.
(** tokens whose curly brackets match *)
Inductive balanced : list tok -> Prop :=
| bal_nil : balanced []
| bal_other t l : t <> TLCurly -> t <> TRCurly -> balanced l -> balanced (t :: l)
| bal_block b l : balanced b -> balanced l -> balanced (TLCurly :: b ++ TRCurly :: l).
(** what may come before the first [:root {]: whole blocks, and colons with something else after them *)
Inductive no_root : list tok -> Prop :=
| nr_nil : no_root []
| nr_other t l : t <> TLCurly -> t <> TColon -> no_root l -> no_root (t :: l)
| nr_block b l : balanced b -> no_root l -> no_root (TLCurly :: b ++ TRCurly :: l)
| nr_colon g t l : gaps g -> ~ gap t -> t <> TIdent (lit "root") -> no_root (t :: l) -> no_root (TColon :: g ++ t :: l)
| nr_selector g g' t l : gaps g -> gaps g' -> ~ gap t -> t <> TLCurly -> no_root (t :: l) -> no_root (TColon :: g ++ TIdent (lit "root") :: g' ++ t :: l).
(** [:root {] *)
Definition root_rule (l : list tok) : Prop := exists g g', gaps g /\ gaps g' /\ l = TColon :: g ++ TIdent (lit "root") :: g' ++ [TLCurly].
(** a value of one token, or a function with its arguments; and its tokens without spaces and comments *)
Inductive value_tokens : list tok -> list tok -> Prop :=
| val_one t : ~ gap t -> (forall f, t <> TFunction f) -> value_tokens [t] [t]
| val_function f l l' : ~ In TRParen l -> significant l l' -> value_tokens (TFunction f :: l' ++ [TRParen]) (TFunction f :: l ++ [TRParen])
with significant : list tok -> list tok -> Prop :=
| sig_nil : significant [] []
| sig_gap t l l' : gap t -> significant l l' -> significant (t :: l) l'
| sig_keep t l l' : ~ gap t -> significant l l' -> significant (t :: l) (t :: l').
(** [name: value], up to what comes after the value *)
Definition opened (name : str) (value : list tok) (l : list tok) : Prop :=
  exists g1 g2 g3 v, gaps g1 /\ gaps g2 /\ gaps g3 /\ value_tokens value v /\ l = g1 ++ TIdent name :: g2 ++ TColon :: g3 ++ v.
(** [name: value;] *)
Definition declaration (name : str) (value : list tok) (l : list tok) : Prop :=
  exists o g, opened name value o /\ gaps g /\ l = o ++ g ++ [TSemicolon].
Inductive declared : list (str * list tok) -> list tok -> Prop :=
| dec_nil : declared [] []
| dec_cons name value l ds r : declaration name value l -> declared ds r -> declared ((name, value) :: ds) (l ++ r).

(** the colour that a value stands for (C32), if any *)
Definition color_of (plain : N -> N) (lower_high : N -> str) (v : list tok) : option color :=
  match interpret_as_color plain lower_high v with Ret o => o | Raise _ => None end.
(** [c] is what the last declaration of [--col-n] with a colour says *)
Definition last_color (color_of : list tok -> option color) (n : str) (c : color) (ds : list (str * list tok)) : Prop :=
  exists ds1 v ds2, ds = ds1 ++ (lit "--col-" ++ n, v) :: ds2 /\ color_of v = Some c /\ forall v', In (lit "--col-" ++ n, v') ds2 -> color_of v' = None.
(** [x] first comes before [y] in [l] *)
Definition sooner {A} (x y : A) (l : list A) : Prop := exists l1 l2, l = l1 ++ x :: l2 /\ ~ In y l1 /\ In y l2 /\ x <> y.
(** what [ds] says *)
Definition says (plain : N -> N) (lower_high : N -> str) (ds : list (str * list tok)) (cfg : icon_settings) : Prop :=
  (forall n c, dget n (color_map cfg) = Some c <-> last_color (color_of plain lower_high) n c ds) /\
  (forall s, In s (icon_sizes cfg) <-> exists v, In (lit "--icon-size-" ++ s, v) ds) /\ NoDup (icon_sizes cfg) /\
  (forall s s', sooner (lit "--icon-size-" ++ s) (lit "--icon-size-" ++ s') (map fst ds) -> sooner s s' (icon_sizes cfg)).
End Spec.

(** * Buttons in the configuration *)
Definition color_keys : list str := [lit "active_color"; lit "hover_color"; lit "disabled_color"].
(** the colours that are given are texts *)
Definition worded (d : list (str * json)) : Prop := forall k v, In k color_keys -> dget k d = Some v -> exists s, v = JStr s.
(** the text given, or another one *)
Definition told (k : str) (d : list (str * json)) (other : str) : str := match dget k d with Some (JStr s) => s | _ => other end.
Definition told_setting (d : list (str * json)) (other : setting) : setting :=
  mkSetting (told (lit "active_color") d (active other)) (told (lit "hover_color") d (hover other)) (told (lit "disabled_color") d (disabled other)).
(** one of the colours is null *)
Definition has_null (d : list (str * json)) : Prop := exists k, In k color_keys /\ dget k d = Some JNull.
Definition worded_or_null (d : list (str * json)) : Prop := forall k v, In k color_keys -> dget k d = Some v -> v = JNull \/ exists s, v = JStr s.
(** the default button: [o] is what a configuration asks for *)
Definition usual_button : setting := mkSetting (lit "primary") (lit "primary-dark") (lit "disabled").
Definition asked (icons : list (str * json)) (o : option setting) : Prop :=
  (dget (lit "default_button") icons = None /\ o = Some usual_button) \/
  (exists d, dget (lit "default_button") icons = Some (JObj d) /\ worded d /\ o = Some (told_setting d usual_button)) \/
  (exists d, dget (lit "default_button") icons = Some (JObj d) /\ worded_or_null d /\ has_null d /\ o = Some usual_button) \/
  (dget (lit "default_button") icons = Some JNull /\ o = None).
