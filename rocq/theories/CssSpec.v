(** Vocabulary for C21-C23 and C55: how a css token is spelled in a text.  The
    character classes are written out again here, independently of the model. *)
From Verif Require Import Base Css.
From Coq Require Import List NArith ZArith Bool.
Import ListNotations.
Open Scope list_scope.
Open Scope N_scope.

Definition space (c : N) : Prop := c = 10 \/ c = 9 \/ c = 32.
Definition digit (c : N) : Prop := 48 <= c <= 57.
Definition letter (c : N) : Prop := 65 <= c <= 90 \/ 97 <= c <= 122.
Definition name_start (c : N) : Prop := letter c \/ 128 <= c \/ c = 95.
Definition name_char (c : N) : Prop := name_start c \/ digit c \/ c = 45.
Inductive hex_is : N -> N -> Prop :=
| HexDigit c : digit c -> hex_is c (c - 48)
| HexLower c : 97 <= c <= 102 -> hex_is c (c - 87)
| HexUpper c : 65 <= c <= 70 -> hex_is c (c - 55).
(** the number written by hexadecimal digits *)
Inductive hex_reads : str -> N -> Prop :=
| HexNil : hex_reads [] 0
| HexSnoc ds n c v : hex_reads ds n -> hex_is c v -> hex_reads (ds ++ [c]) (16 * n + v).
Definition scalar (n : N) : Prop := n <> 0 /\ ~ (55296 <= n <= 57343) /\ n <= 1114111.
(** what may follow a backslash, and the character meant *)
Inductive escape_of : str -> N -> Prop :=
| EscHex ds n w x : ds <> [] -> (length ds <= 6)%nat -> hex_reads ds n -> (w = [] \/ exists c, w = [c] /\ space c) ->
    (scalar n /\ x = n \/ ~ scalar n /\ x = 65533) -> escape_of (ds ++ w) x
| EscChar c : ~ (exists v, hex_is c v) -> escape_of [c] c.
(** the spelling of a name *)
Inductive spells : str -> str -> Prop :=
| SpNil : spells [] []
| SpChar c p v : name_char c -> spells p v -> spells (c :: p) (c :: v)
| SpEsc e x p v : escape_of e x -> (forall r, e <> 10 :: r) -> spells p v -> spells (92 :: e ++ p) (x :: v).
(** the spelling of the inside of a string with quote [q] *)
Inductive str_spells (q : N) : str -> str -> Prop :=
| StNil : str_spells q [] []
| StChar c p v : c <> q -> c <> 10 -> c <> 92 -> str_spells q p v -> str_spells q (c :: p) (c :: v)
| StNewline p v : str_spells q p v -> str_spells q (92 :: 10 :: p) v
| StEsc e x p v : escape_of e x -> (forall r, e <> 10 :: r) -> str_spells q p v -> str_spells q (92 :: e ++ p) (x :: v).
(** the spelling of the inside of an unquoted url *)
Inductive url_spells : str -> str -> Prop :=
| UrlNil : url_spells [] []
| UrlSpace c p v : space c -> url_spells p v -> url_spells (c :: p) v
| UrlChar c p v : c <> 41 -> ~ space c -> c <> 34 -> c <> 39 -> c <> 40 -> url_spells p v -> url_spells (c :: p) (c :: v)
| UrlEsc e x p v : escape_of e x -> (forall r, e <> 10 :: r) -> url_spells p v -> url_spells (92 :: e ++ p) (x :: v).
(** a character that can stand for itself as a token: not part of another token in
    every context *)
Definition delim_char (c : N) : Prop :=
  c < 128 /\ ~ space c /\ ~ digit c /\ ~ name_start c /\ c <> 34 /\ c <> 39 /\ c <> 40 /\ c <> 41 /\ c <> 44 /\ c <> 58 /\ c <> 59 /\
  c <> 91 /\ c <> 93 /\ c <> 123 /\ c <> 125.
Definition is_url (v : str) : Prop := exists a b c, v = [a; b; c] /\ (a = 117 \/ a = 85) /\ (b = 114 \/ b = 82) /\ (c = 108 \/ c = 76).

Section Spec.
Context {F : Type} (float_of : str -> option F) (float_str : F -> str).
Context (high_digit : N -> bool) (int_high : str -> option Z).
(** what python's [isdigit] accepts *)
Definition dec (c : N) : Prop := digit c \/ (128 <= c /\ high_digit c = true).
Definition digits (ds : str) : Prop := Forall dec ds.
Definition sign (s : str) : Prop := s = [] \/ s = [43] \/ s = [45].

(** the ten digits *)
Inductive dec_reads : str -> N -> Prop :=
| DecNil : dec_reads [] 0
| DecSnoc ds n c : dec_reads ds n -> digit c -> dec_reads (ds ++ [c]) (10 * n + (c - 48)).
(** the spelling of a number and its value; true: it has a fraction or an exponent *)
Inductive numeral : str -> @num F -> bool -> Prop :=
| NumInt sg ds n : sign sg -> ds <> [] -> dec_reads ds n -> numeral (sg ++ ds) (NInt (if N.eqb (hd 0 sg) 45 then - Z.of_N n else Z.of_N n)) false
| NumHigh sg ds z : sign sg -> ds <> [] -> digits ds -> ~ Forall (fun c => c < 128) ds -> int_high (sg ++ ds) = Some z -> numeral (sg ++ ds) (NInt z) false
| NumFloat sg ds fr ex f : sign sg -> digits ds ->
    (fr = [] /\ ds <> [] \/ exists fs, fr = 46 :: fs /\ fs <> [] /\ digits fs) ->
    (ex = [] \/ exists e esg es, ex = e :: esg ++ es /\ (e = 101 \/ e = 69) /\ sign esg /\ es <> [] /\ digits es) ->
    (fr <> [] \/ ex <> []) -> float_of (sg ++ ds ++ fr ++ ex) = Some f -> numeral (sg ++ ds ++ fr ++ ex) (NFloat f) true.

(** [denotes t p rest]: the token [t] is spelled by [p] when [rest] follows *)
Inductive denotes : @token F -> str -> str -> Prop :=
| DSpace v rest : v <> [] -> Forall space v -> denotes (TWhitespace v) v rest
| DComment v rest : (forall a b, v <> a ++ 42 :: 47 :: b) -> denotes (TComment v) ([47; 42] ++ v ++ [42; 47]) rest
| DCommentEnd v : (forall a b, v <> a ++ 42 :: 47 :: b) -> denotes (TDelim [47]) ([47; 42] ++ v) []
| DString q p v rest : q = 34 \/ q = 39 -> str_spells q p v -> denotes (TString v) (q :: p ++ [q]) rest
| DStringEnd q p v w : q = 34 \/ q = 39 -> str_spells q p v -> w = [] \/ w = [92] -> denotes (TString v) (q :: p ++ w) []
| DBadString q p v rest : q = 34 \/ q = 39 -> str_spells q p v -> denotes (TBadString v) (q :: p) (10 :: rest)
| DHash i p v rest : p <> [] -> spells p v -> denotes (THash i v) (35 :: p) rest
| DDelim c rest : delim_char c -> denotes (TDelim [c]) [c] rest
| DLParen rest : denotes TLParen [40] rest
| DRParen rest : denotes TRParen [41] rest
| DNumber v f p rest : numeral p v f -> denotes (TNumber v f) p rest
| DPercentage v f p rest : numeral p v f -> denotes (TPercentage v f) (p ++ [37]) rest
| DDimension v f u p q rest : numeral p v f -> q <> [] -> spells q u -> denotes (TDimension v f u) (p ++ q) rest
| DComma rest : denotes TComma [44] rest
| DCDC rest : denotes TCDC [45; 45; 62] rest
| DIdent v p rest : p <> [] -> spells p v -> denotes (TIdent v) p rest
| DIdentEnd v p : spells p v -> is_url v -> denotes (TIdent v) (p ++ [40]) []
| DFunction v p rest : p <> [] -> spells p v -> ~ is_url v -> denotes (TFunction v) (p ++ [40]) rest
| DUrlFunction v p w rest : spells p v -> is_url v -> Forall space w -> denotes (TFunction v) (p ++ 40 :: w) rest
| DUrl v p w b rest : spells p w -> is_url w -> url_spells b v -> denotes (TUrl v) (p ++ 40 :: b ++ [41]) rest
| DUrlEnd v p w b : spells p w -> is_url w -> url_spells b v -> denotes (TUrl v) (p ++ 40 :: b) []
| DBadUrl p w b rest : spells p w -> is_url w -> denotes TBadUrl (p ++ 40 :: b) rest
| DColon rest : denotes TColon [58] rest
| DSemicolon rest : denotes TSemicolon [59] rest
| DCDO rest : denotes TCDO [60; 33; 45; 45] rest
| DAt v p rest : p <> [] -> spells p v -> denotes (TAt v) (64 :: p) rest
| DLSquare rest : denotes TLSquare [91] rest
| DRSquare rest : denotes TRSquare [93] rest
| DLCurly rest : denotes TLCurly [123] rest
| DRCurly rest : denotes TRCurly [125] rest.
(** a text as the spelling of a list of tokens *)
Inductive spelled : list (@token F) -> str -> Prop :=
| SEof : spelled [TEof] []
| SCons t ts p rest : p <> [] -> denotes t p rest -> spelled ts rest -> spelled (t :: ts) (p ++ rest).
End Spec.

(** * Texts the tokenizer accepts *)
(** a float as python's [float] accepts it, in ASCII digits *)
Definition float_text (p : str) : Prop := exists sg ds fr ex,
  p = sg ++ ds ++ fr ++ ex /\ sign sg /\ Forall digit ds /\
  (fr = [] /\ ds <> [] \/ exists fs, fr = 46 :: fs /\ fs <> [] /\ Forall digit fs) /\
  (ex = [] \/ exists e esg es, ex = e :: esg ++ es /\ (e = 101 \/ e = 69) /\ sign esg /\ es <> [] /\ Forall digit es).
(** ends with a newline, has no backslash, every opening parenthesis has a closing
    one somewhere after it, and only ASCII digits *)
Definition tidy (high_digit : N -> bool) (s : str) : Prop :=
  (s = [] \/ exists a, s = a ++ [10]) /\ ~ In 92 s /\ (forall a b, s = a ++ 40 :: b -> In 41 b) /\ (forall c, In c s -> 128 <= c -> high_digit c = false).
