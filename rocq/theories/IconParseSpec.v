(** Vocabulary for C48: how an icon command is written. *)
From Verif Require Import Base Graph Css CssSpec CssRoundSpec IconParse.
From Coq Require Import String ZArith NArith Bool List.
Import ListNotations.
Open Scope list_scope.
Open Scope N_scope.

Section Spec.
Context {F : Type}.
Notation itoken := (@itoken F).

(** * The grammar, over the tokens that are neither spaces nor comments *)
(** the rest of a list of strings after the opening bracket; a comma may precede the closing one *)
Inductive listed : list itoken -> list str -> Prop :=
| ListedEnd : listed [IRSquare] []
| ListedLast v : listed [IString v; IRSquare] [v]
| ListedMore v ts l : listed ts l -> listed (IString v :: IComma :: ts) (v :: l).
(** the rest of the button settings after the opening bracket: name and three colours *)
Inductive button_entries : list itoken -> list (str * setting) -> Prop :=
| EntriesEnd : button_entries [IRCurly] []
| EntriesLast name ts a h d : listed ts [a; h; d] -> button_entries (IString name :: IColon :: ILSquare :: ts ++ [IRCurly]) [(name, mkSetting a h d)]
| EntriesMore name ts a h d us l : listed ts [a; h; d] -> button_entries us l ->
    button_entries (IString name :: IColon :: ILSquare :: ts ++ IComma :: us) ((name, mkSetting a h d) :: l).
(** the last entry for a name counts *)
Fixpoint last_entry (n : str) (l : list (str * setting)) : option setting :=
  match l with
  | [] => None
  | (m, s) :: r => match last_entry n r with Some x => Some x | None => if str_eqb n m then Some s else None end
  end.
(** the names other than "default", in the order in which they first appear *)
Fixpoint first_names (seen : list str) (l : list (str * setting)) : list str :=
  match l with
  | [] => []
  | (m, _) :: r => if str_eqb m (lit "default") || mem m seen then first_names seen r else m :: first_names (m :: seen) r
  end.
Definition settings_mean (s : settings) (l : list (str * setting)) : Prop :=
  by_default s = last_entry (lit "default") l /\ map fst (by_name s) = first_names [] l /\
  forall n, n <> lit "default" -> dget n (by_name s) = last_entry n l.
Inductive choice (all : str) : list itoken -> option (list str) -> Prop :=
| ChoiceAll : choice all [IIdent all] None
| ChoiceList ts l : listed ts l -> choice all (ILSquare :: ts) (Some l).
Inductive button_written : list itoken -> button -> Prop :=
| WrittenNothing : button_written [IEof] DefaultButton
| WrittenBtn : button_written [IIdent (lit "btn")] DefaultButton
| WrittenDefault : button_written [IIdent (lit "default")] DefaultButton
| WrittenNone : button_written [IIdent (lit "no-btn")] NoButton
| WrittenSettings ts l s : button_entries ts l -> settings_mean s l -> button_written (ILCurly :: ts) (Buttons s).
(** icon, its colour, the colours, the sizes, the buttons *)
Inductive written : list itoken -> command -> Prop :=
| Written n i cs c ss s bs b : choice (lit "all-colors") cs c -> choice (lit "all-sizes") ss s -> button_written bs b ->
    written (IIdent n :: IIdent i :: cs ++ ss ++ bs) (mkCommand n i c s b).

Definition is_blank (t : itoken) : Prop := (exists v, t = IWhitespace v) \/ (exists v, t = IComment v).
(** [ts] without its spaces and comments *)
Inductive without_blanks : list itoken -> list itoken -> Prop :=
| WBNil : without_blanks [] []
| WBBlank t ts us : is_blank t -> without_blanks ts us -> without_blanks (t :: ts) us
| WBKeep t ts us : ~ is_blank t -> without_blanks ts us -> without_blanks (t :: ts) (t :: us).

(** * The text *)
Inductive gap : str -> Prop :=
| GapNil : gap []
| GapSpace c w : space c -> gap w -> gap (c :: w)
| GapComment v w : (forall c, In c v -> c <> 10) -> gap w -> gap (lit "//" ++ v ++ [10] ++ w).
Inductive token_text : itoken -> str -> Prop :=
| TextWord v : Forall name_char v -> (exists a r, v = a :: r /\ name_start a) -> v <> lit "true" -> v <> lit "false" -> v <> lit "null" -> token_text (IIdent v) v
| TextString q v : (q = 34 \/ q = 39) -> (forall c, In c v -> c <> q /\ c <> 92 /\ c <> 10) -> token_text (IString v) (q :: v ++ [q])
| TextLCurly : token_text ILCurly (lit "{")
| TextRCurly : token_text IRCurly (lit "}")
| TextLSquare : token_text ILSquare (lit "[")
| TextRSquare : token_text IRSquare (lit "]")
| TextComma : token_text IComma (lit ",")
| TextColon : token_text IColon (lit ":").
(** tokens with gaps around them; a gap is needed where a word would go on *)
Inductive spaced : list itoken -> str -> Prop :=
| SpacedEnd w : gap w -> spaced [] w
| SpacedToken w t x ts rest : gap w -> token_text t x -> ((exists v, t = IIdent v) -> stops rest) -> spaced ts rest -> spaced (t :: ts) (w ++ x ++ rest).
End Spec.
