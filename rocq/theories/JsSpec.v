(** Vocabulary for C27, C28 and C31: how a javascript token is spelled in a text. *)
From Verif Require Import Base Js JsTables CssSpec.
From Coq Require Import String ZArith NArith Bool List.
Import ListNotations.
Open Scope list_scope.
Open Scope N_scope.

Definition in_table (exact : list N) (ranges : list (N * N)) (c : N) : Prop :=
  In c exact \/ exists lo hi, In (lo, hi) ranges /\ lo <= c <= hi.
(** the ranges are not empty, do not overlap and are in increasing order *)
Inductive increasing : list (N * N) -> Prop :=
| IncNil : increasing []
| IncOne lo hi : lo <= hi -> increasing [(lo, hi)]
| IncCons lo hi lo2 hi2 l : lo <= hi -> hi < lo2 -> increasing ((lo2, hi2) :: l) -> increasing ((lo, hi) :: (lo2, hi2) :: l).

(** ecmascript white space except the line terminators *)
Definition js_space (c : N) : Prop :=
  c = 9 \/ c = 11 \/ c = 12 \/ c = 32 \/ c = 160 \/ c = 5760 \/ 8192 <= c <= 8202 \/ c = 8239 \/ c = 8287 \/ c = 12288 \/ c = 65279.
(** line feed, line separator, paragraph separator *)
Definition js_newline (c : N) : Prop := c = 10 \/ c = 8232 \/ c = 8233.
Definition id_start (c : N) : Prop := in_table exact_matches_id_start match_ranges_id_start c.
Definition id_part (c : N) : Prop := c = 36 \/ c = 8204 \/ c = 8205 \/ in_table exact_matches_id_continue match_ranges_id_continue c.
Definition js_flag (c : N) : Prop := In c (lit "dgimsuy").

Definition ends_line (rest : str) : Prop := rest = [] \/ exists c r, rest = c :: r /\ js_newline c.
Definition begins (P : N -> Prop) (s : str) : Prop := exists c r, s = c :: r /\ P c.
(** [u] and four digits, or one to five digits in braces: what may follow a backslash *)
Inductive uesc : str -> N -> Prop :=
| UFour ds n : length ds = 4%nat -> hex_reads ds n -> uesc (117 :: ds) n
| UBrace ds n : ds <> [] -> (length ds <= 5)%nat -> hex_reads ds n -> uesc (117 :: 123 :: ds ++ [125]) n.
(** the text goes on with such an escape; a closing brace that ends the text does not
    count *)
Inductive escape_ahead : str -> Prop :=
| AheadFour ds n r : length ds = 4%nat -> hex_reads ds n -> escape_ahead (117 :: ds ++ r)
| AheadBrace ds n c r : ds <> [] -> (length ds <= 5)%nat -> hex_reads ds n -> escape_ahead (117 :: 123 :: ds ++ 125 :: c :: r).

(** the spelling of a word in front of [rest]; true: characters came before *)
Inductive id_spells (rest : str) : bool -> str -> str -> Prop :=
| IdNil b : id_spells rest b [] []
| IdStart c p v : id_start c -> id_spells rest true p v -> id_spells rest false (c :: p) (c :: v)
| IdPart c p v : id_part c -> id_spells rest true p v -> id_spells rest true (c :: p) (c :: v)
| IdEsc b e x p v : uesc e x -> escape_ahead (e ++ p ++ rest) -> id_spells rest true p v -> id_spells rest b (92 :: e ++ p) (x :: v).
Definition word_goes_on (rest : str) : Prop := begins id_part rest \/ exists r, rest = 92 :: r /\ escape_ahead r.
Inductive word_token : str -> jtok -> Prop :=
| WordAs : word_token (lit "as") JAs
| WordFrom : word_token (lit "from") JFrom
| WordImport : word_token (lit "import") JImport
| WordIdent v : v <> lit "as" -> v <> lit "from" -> v <> lit "import" -> word_token v (JIdent v).

Inductive simple_escape : N -> N -> Prop :=
| EscN : simple_escape 110 10 | EscR : simple_escape 114 13 | EscT : simple_escape 116 9 | EscB : simple_escape 98 8
| EscF : simple_escape 102 12 | EscV : simple_escape 118 11 | Esc0 : simple_escape 48 0
| EscSelf c : ~ In c [110; 114; 116; 98; 102; 118; 48] -> simple_escape c c.
(** the spelling of the inside of a string with quote [q], in front of [rest] *)
Inductive js_spells (q : N) (rest : str) : str -> str -> Prop :=
| JsNil : js_spells q rest [] []
| JsChar c p v : c <> q -> ~ js_newline c -> c <> 92 -> js_spells q rest p v -> js_spells q rest (c :: p) (c :: v)
| JsUni e x p v : uesc e x -> escape_ahead (e ++ p ++ rest) -> js_spells q rest p v -> js_spells q rest (92 :: e ++ p) (x :: v)
| JsEsc c x p v : simple_escape c x -> ~ escape_ahead (c :: p ++ rest) -> js_spells q rest p v -> js_spells q rest (92 :: c :: p) (x :: v).

(** the inside of a regular expression in front of [rest], from one bracket depth to
    another *)
Inductive rx (rest : str) : nat -> str -> nat -> Prop :=
| RxNil l : rx rest l [] l
| RxSlash l b l2 : rx rest l b l2 -> rx rest l (92 :: 47 :: b) l2
| RxOpen l b l2 : rx rest (S l) b l2 -> rx rest l (91 :: b) l2
| RxClose l b l2 : rx rest (pred l) b l2 -> rx rest l (93 :: b) l2
| RxChar l c b l2 : ~ js_newline c -> c <> 91 -> c <> 93 -> (c = 47 -> l <> 0%nat) -> (c = 92 -> ~ begins (fun d => d = 47) (b ++ rest)) ->
    rx rest l b l2 -> rx rest l (c :: b) l2.
(** what makes a slash a comment *)
Definition comment_next (s : str) : Prop := begins (fun c => c = 47 \/ c = 42) s.
Definition no_end (v : str) : Prop := forall a b, v <> a ++ 42 :: 47 :: b.

(** [js_denotes t p rest]: the text [p] in front of [rest] is the token [t] *)
Inductive js_denotes : jtok -> str -> str -> Prop :=
| JdSpace v rest : v <> [] -> Forall js_space v -> ~ begins js_space rest -> js_denotes (JSpace v) v rest
| JdNewline c rest : js_newline c -> js_denotes JNewline [c] rest
| JdLine v rest : Forall (fun c => ~ js_newline c) v -> ends_line rest -> js_denotes (JComment v) ([47; 47] ++ v) rest
| JdBlock v rest : no_end v -> js_denotes (JComment v) ([47; 42] ++ v ++ [42; 47]) rest
| JdBlockEnd v : no_end v -> js_denotes (JComment v) ([47; 42] ++ v) []
| JdWord p v t rest : p <> [] -> id_spells rest false p v -> ~ word_goes_on rest -> word_token v t -> js_denotes t p rest
| JdOpen rest : js_denotes JOpen [123] rest
| JdClose rest : js_denotes JClose [125] rest
| JdStar rest : js_denotes JStar [42] rest
| JdComma rest : js_denotes JComma [44] rest
| JdSemi rest : js_denotes JSemi [59] rest
| JdString q p v rest : q = 34 \/ q = 39 -> js_spells q (q :: rest) p v -> js_denotes (JString v) (q :: p ++ [q]) rest
| JdOpenString q p v rest : q = 34 \/ q = 39 -> js_spells q rest p v -> ends_line rest -> js_denotes (JInvalid (q :: v)) (q :: p) rest
| JdOpenEscape q p v : q = 34 \/ q = 39 -> js_spells q [92] p v -> js_denotes (JInvalid (q :: v ++ [92])) (q :: p ++ [92]) []
| JdRegex b f rest : b <> [] -> ~ comment_next b -> rx (47 :: f ++ rest) 0 b 0 -> Forall js_flag f -> ~ begins js_flag rest ->
    js_denotes (JRegex b f) (47 :: b ++ 47 :: f) rest
| JdOpenRegex b l rest : ~ comment_next b -> rx rest 0 b l -> ends_line rest -> js_denotes (JInvalid (47 :: b)) (47 :: b) rest
| JdOther c rest : ~ js_space c -> ~ js_newline c -> ~ id_start c -> ~ In c [123; 125; 42; 44; 59; 34; 39; 47] -> (c = 92 -> ~ escape_ahead rest) ->
    js_denotes (JInvalid [c]) [c] rest.
(** a text as the spelling of a list of tokens *)
Inductive js_spelled : list jtok -> str -> Prop :=
| JsEnd : js_spelled [JEof] []
| JsMore t ts p rest : p <> [] -> js_denotes t p rest -> js_spelled ts rest -> js_spelled (t :: ts) (p ++ rest).
