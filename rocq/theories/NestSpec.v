(** Vocabulary for C26: what an import in a stylesheet means. *)
From Verif Require Import Base Graph PyPath PyNorm Css Handlers Nest IconManipSpec.
From Coq Require Import String ZArith NArith Bool List.
Import ListNotations.
Open Scope list_scope.
Open Scope N_scope.

(** * The text of an import *)
Definition stripped (s : str) : Prop := (forall c r, s = c :: r -> py_space c = false) /\ (forall c r, s = r ++ [c] -> py_space c = false).
(** the word from, in any mix of cases *)
Definition from_word (w : str) : Prop := map lower w = lit "from".
Definition without_from (s : str) : Prop := forall a w b, s = a ++ w ++ b -> ~ from_word w.
(** "! PREPROCESSOR: import" and what follows it, without the blanks around it *)
Definition import_comment (v args : str) : Prop :=
  stripped args /\ ~ In 10 args /\
  exists w1 w2 w3 w4 w5 w6, blanks w1 /\ blanks w2 /\ blanks w3 /\ blanks w4 /\ blanks w5 /\ blanks w6 /\ w4 <> [] /\ w5 <> [] /\
    v = w1 ++ lit "!" ++ w2 ++ lit "PREPROCESSOR" ++ w3 ++ lit ":" ++ w4 ++ lit "import" ++ w5 ++ args ++ w6.
(** a comment asks for the rule [selector] of the stylesheet [path] of the project *)
Inductive asks (default_css : str) : str -> ref -> Prop :=
| AsksDefault v selector : import_comment v selector -> without_from selector -> asks default_css v (default_css, selector)
| AsksFrom v selector w1 from w2 path : import_comment v (selector ++ w1 ++ from ++ w2 ++ lit "/" ++ path) ->
    stripped selector -> blanks w1 -> from_word from -> blanks w2 -> ~ In 32 path ->
    (forall a w b, selector ++ w1 ++ from = a ++ w ++ b -> from_word w -> b = []) ->
    asks default_css v (join_path (lit "src") [lit "public"; path], selector).

Section Sheets.
Context {F : Type} (float_str : F -> str).
Notation token := (token (F := F)).
(** * The rules of a stylesheet *)
Definition curly (t : token) : Prop := t = TLCurly \/ t = TRCurly.
Definition blank (l : list token) : Prop := Forall (fun t => exists v, t = TWhitespace v) l.
Inductive balanced : list token -> Prop :=
| BalancedNil : balanced []
| BalancedToken t r : ~ curly t -> t <> TEof -> balanced r -> balanced (t :: r)
| BalancedBlock a r : balanced a -> balanced r -> balanced (TLCurly :: a ++ TRCurly :: r).
(** the first token of a rule *)
Definition starts_rule (t : token) : Prop := t <> TEof /\ t <> TCDO /\ t <> TLCurly /\ (forall v, t <> TAt v) /\ (forall v, t <> TComment v) /\ (forall v, t <> TWhitespace v).
(** [sheet ts l]: at its top the stylesheet has the rules [l], given by the tokens before and
    between the braces; rules in an at-rule or between [<!--] and [-->] do not count, and the
    blocks of the others have no braces *)
Inductive sheet : list token -> list (list token * list token) -> Prop :=
| SheetEnd : sheet [TEof] []
| SheetWhite v r l : sheet r l -> sheet (TWhitespace v :: r) l
| SheetComment v r l : sheet r l -> sheet (TComment v :: r) l
| SheetHidden a r l : ~ In TCDC a -> ~ In TEof a -> sheet r l -> sheet (TCDO :: a ++ TCDC :: r) l
| SheetAt v a b r l : ~ In TLCurly a -> ~ In TEof a -> balanced b -> sheet r l -> sheet (TAt v :: a ++ TLCurly :: b ++ TRCurly :: r) l
| SheetRule t a b r l : starts_rule t -> ~ In TLCurly a -> ~ In TEof a -> (forall x, In x b -> ~ curly x /\ x <> TEof) -> sheet r l ->
    sheet ((t :: a) ++ TLCurly :: b ++ TRCurly :: r) ((t :: a, b) :: l).
(** the selector of a rule *)
Definition selector_of (prelude : list token) : str := strip (serialize_many float_str prelude).

(** * Expansion *)
(** [rule_of (path, selector) b]: the stylesheet [path] has a rule with this selector and
    the block [b]; [import t r]: the token [t] asks for the rule [r] *)
Context (rule_of : ref -> list token -> Prop) (import : token -> ref -> Prop).
(** the block with the imports in it expanded, and some or all blanks at its ends removed *)
Inductive expands : ref -> list token -> Prop :=
| Expands r b a v c : rule_of r b -> expanded b (a ++ v ++ c) -> blank a -> blank c -> expands r v
(** tokens with the imports in them replaced *)
with expanded : list token -> list token -> Prop :=
| ExpandedNil : expanded [] []
| ExpandedToken t ts out : (forall r, ~ import t r) -> expanded ts out -> expanded (t :: ts) (t :: out)
| ExpandedImport t r v ts out : import t r -> expands r v -> expanded ts out -> expanded (t :: ts) (v ++ out).
(** the rule [r] can be expanded with the rules [seen] and those of its own stylesheet *)
Inductive ready (seen : ref -> Prop) : ref -> Prop :=
| Ready r b : rule_of r b -> (forall t i, In t b -> import t i -> seen i \/ (fst i = fst r /\ ready seen i)) -> ready seen r.
End Sheets.

(** * The bookkeeping *)
Section Book.
Context {F : Type} (import : token (F := F) -> ref -> Prop).
Notation rules := (rules (F := F)).
(** the number of references to the stylesheet [p] that are waited for *)
Definition awaited (p : str) (w : list (ref * list ref)) : Z := Z.of_nat (length (filter (fun e => str_eqb p (fst (fst e))) w)).
Record consistent (rs : rules) : Prop := {
  (* a rule is available or unresolved, not both *)
  not_both : forall r, rget r (available rs) <> None -> rget r (unresolved rs) = None;
  (* the references that are recorded as missing are those in the block that are not available *)
  missing_ok : forall r b m, rget r (unresolved rs) = Some (b, m) -> NoDup m /\ forall i, In i m <-> rget i (available rs) = None /\ exists t, In t b /\ import t i;
  (* the rules that wait for a reference are those for which it is missing *)
  waiting_ok : forall i r, (exists w, rget i (waiting rs) = Some w /\ In r w) <-> exists b m, rget r (unresolved rs) = Some (b, m) /\ In i m;
  waiting_once : forall i w, rget i (waiting rs) = Some w -> NoDup w;
  (* the rules that can be resolved are those for which nothing is missing *)
  resolvable_ok : forall r, In r (resolvable rs) <-> exists b, rget r (unresolved rs) = Some (b, []);
  (* the count of a stylesheet is positive and not less than the number of its references that are waited for *)
  counts_once : dict_wf (counts rs);
  counts_pos : forall p n, dget p (counts rs) = Some n -> (1 <= n)%Z;
  counts_ok : forall p, (awaited p (waiting rs) <= match dget p (counts rs) with Some n => n | None => 0 end)%Z }.
End Book.

(** * The stylesheets of a project *)
(** a comment that is an import *)
Definition import {F} (default_css : str) (t : token (F := F)) (r : ref) : Prop := exists v, t = TComment v /\ asks default_css v r.
Section Files.
Context {F : Type} (float_of : str -> option F) (float_str : F -> str) (high_digit : N -> bool) (int_high : str -> option Z).
Notation token := (token (F := F)).
Context (default_css self : str) (f : str -> option str).
(** the file in which the rules of a stylesheet are looked up: the stylesheet itself if it is
    the one that is built, and otherwise what was built from it *)
Definition file_of (path : str) : str := if str_eqb path self then self else out_file path.
Definition is_sheet (file : str) (ts : list token) (l : list (list token * list token)) : Prop := exists text, f file = Some text /\ tokenize float_of high_digit int_high text = (ts, None) /\ sheet ts l.
Definition rule_of (r : ref) (b : list token) : Prop := exists ts l p, is_sheet (file_of (fst r)) ts l /\ In (p, b) l /\ selector_of float_str p = snd r.
(** no two rules with the same selector *)
Definition distinct (l : list (list token * list token)) : Prop := NoDup (map (fun e => selector_of float_str (fst e)) l).
(** the file of an import, if there is one, is a stylesheet *)
Definition readable (r : ref) : Prop := forall text, f (file_of (fst r)) = Some text -> exists ts l, tokenize float_of high_digit int_high text = (ts, None) /\ sheet ts l.
(** the other stylesheets that a list of tokens imports from *)
Definition others (ts : list token) (p : str) : Prop := p <> self /\ exists t r, In t ts /\ import default_css t r /\ fst r = p.
(** every stylesheet that is imported from is there and has no two rules for one selector;
    different stylesheets are in different files *)
Definition proper_imports (ts : list token) : Prop :=
  (forall t r, In t ts -> import default_css t r -> exists ts' l, is_sheet (file_of (fst r)) ts' l /\ distinct l) /\
  (forall t t' r r', In t ts -> In t' ts -> import default_css t r -> import default_css t' r' -> file_of (fst r) = file_of (fst r') -> fst r = fst r').
(** the rule [i] is imported by every rule that is found for [r] *)
Definition needs (r i : ref) : Prop := forall b, rule_of r b -> exists t, In t b /\ import default_css t i.
(** the tokens that are not blank *)
Definition solid (l : list token) : list token := filter (fun t => negb (is_white t)) l.
End Files.
