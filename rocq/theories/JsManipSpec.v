(** C29 and C30: which lines are commented out and which imports get a version. *)
From Verif Require Import Base PyPath PyNorm Js.
From Coq Require Import String ZArith NArith Bool List.
Import ListNotations.
Open Scope list_scope.
Open Scope N_scope.

(** * Lines *)
Definition line_end (t : jtok) : Prop := t = JNewline \/ t = JEof.
Definition one_line (seg : list jtok) : Prop := Forall (fun t => ~ line_end t) seg.
Definition hint_text (v : str) : Prop :=
  exists a b, v = a ++ lit "@@type-hint" ++ b /\ Forall (fun c => py_space c = true) a /\ Forall (fun c => py_space c = true) b.
Definition hinted (seg : list jtok) : Prop := exists v, In (JComment v) seg /\ hint_text v.
(** what was intended: every line with a hint becomes a comment with its text *)
Inductive hide_lines : list jtok -> list jtok -> Prop :=
| HideEnd : hide_lines [] []
| HideHint seg e rest out : one_line seg -> line_end e -> hinted seg -> hide_lines rest out ->
    hide_lines (seg ++ e :: rest) (JComment (js_serialize_many seg) :: e :: out)
| HidePlain seg e rest out : one_line seg -> line_end e -> ~ hinted seg -> hide_lines rest out ->
    hide_lines (seg ++ e :: rest) (seg ++ e :: out).
(** what happens: the line after an empty line is not looked at, unless that is
    itself the second of such a pair; the flag says whether the line is looked at *)
Inductive hide_seen_lines : bool -> list jtok -> list jtok -> Prop :=
| SeenEnd b : hide_seen_lines b [] []
| SeenHint seg e rest out : one_line seg -> line_end e -> hinted seg -> hide_seen_lines true rest out ->
    hide_seen_lines true (seg ++ e :: rest) (JComment (js_serialize_many seg) :: e :: out)
| SeenPlain seg e rest out : one_line seg -> line_end e -> seg <> [] -> ~ hinted seg -> hide_seen_lines true rest out ->
    hide_seen_lines true (seg ++ e :: rest) (seg ++ e :: out)
| SeenEmpty e rest out : line_end e -> hide_seen_lines false rest out -> hide_seen_lines true (e :: rest) (e :: out)
| SeenNot seg e rest out : one_line seg -> line_end e -> hide_seen_lines true rest out ->
    hide_seen_lines false (seg ++ e :: rest) (seg ++ e :: out).
(** two line terminators in a row, or one at the start *)
Definition empty_line (ts : list jtok) : Prop :=
  exists a rest, ts = a ++ JNewline :: rest /\ (a = [] \/ exists a0, a = a0 ++ [JNewline]).
(** the end of file stands at the end and nowhere else *)
Definition whole (ts : list jtok) : Prop := exists b, ts = b ++ [JEof] /\ ~ In JEof b.

(** * Imports *)
Inductive spaces : list jtok -> list jtok -> Prop :=
| SpNil : spaces [] []
| SpSkip t ts l : (exists v, t = JSpace v) \/ t = JNewline -> spaces ts l -> spaces (t :: ts) l
| SpKeep t ts l : (forall v, t <> JSpace v) -> t <> JNewline -> spaces ts l -> spaces (t :: ts) (t :: l).
(** between the braces; the comma after a name without alias may be missing *)
Inductive names : list jtok -> Prop :=
| NmNil : names []
| NmName v l : names l -> names (JIdent v :: l)
| NmComma v l : names l -> names (JIdent v :: JComma :: l)
| NmAlias v w l : names l -> names (JIdent v :: JAs :: JIdent w :: JComma :: l)
| NmLast v w : names [JIdent v; JAs; JIdent w].
Inductive alias : list jtok -> Prop := AlNone : alias [] | AlSome v : alias [JAs; JIdent v].
(** what stands between [import] and the string *)
Inductive braces : list jtok -> Prop := Braces l : names l -> braces (JOpen :: l ++ [JClose]).
Inductive bindings : list jtok -> Prop :=
| BiBraces l : braces l -> bindings l
| BiStar a : alias a -> bindings (JStar :: a)
| BiStarBraces a l : alias a -> braces l -> bindings (JStar :: a ++ JComma :: l).
Inductive clause : list jtok -> Prop :=
| ClPath : clause []
| ClDefault v a : alias a -> clause (JIdent v :: a ++ [JFrom])
| ClDefaultMore v a l : alias a -> bindings l -> clause (JIdent v :: a ++ JComma :: l ++ [JFrom])
| ClBindings l : bindings l -> clause (l ++ [JFrom]).
(** [ts] starts with the rest of an import statement for the path [p] *)
Definition import_of (ts body : list jtok) (p : str) (rest : list jtok) : Prop :=
  ts = body ++ JString p :: rest /\ exists l, spaces body l /\ clause l.
Definition local (p : str) : Prop := exists r, p = [47] ++ r \/ p = [46; 47] ++ r \/ p = [46; 46; 47] ++ r.
Definition good_path (p : str) : Prop := local p /\ ~ In 63 p /\ ~ In 35 p.
Definition good_import (ts body : list jtok) (p : str) (rest : list jtok) : Prop := import_of ts body p rest /\ good_path p.
Definition ignores (t : jtok) : Prop := exists v, t = JComment (lit "PREPROCESSOR: ignore-import" ++ v).
(** whether the next import is ignored after the token *)
Inductive flag : bool -> jtok -> bool -> Prop :=
| FlImport b : flag b JImport false
| FlMark b t : ignores t -> flag b t true
| FlOther b t : t <> JImport -> ~ ignores t -> flag b t b.

Section Spec.
(** [target p]: the imported file; [version p]: the new text of the string, if the
    file has been built *)
Context (target : str -> str) (version : str -> option str).
Inductive edited : bool -> list jtok -> list jtok -> Prop :=
| EdEnd b : edited b [] []
| EdPass b t b' ts out : t <> JImport \/ b = true -> flag b t b' -> edited b' ts out -> edited b (t :: ts) (t :: out)
| EdImport ts body p rest new out : good_import ts body p rest -> version p = Some new -> edited false rest out ->
    edited false (JImport :: ts) (JImport :: body ++ JString new :: out)
| EdBad ts note out : ~ (exists body p rest, good_import ts body p rest) -> edited false ts out ->
    edited false (JImport :: ts) (JComment (lit "PREPROCESSOR: ignore-import" ++ note) :: JImport :: out).
(** the files that are imported *)
Inductive imported : bool -> list jtok -> str -> Prop :=
| ImHere ts body p rest : good_import ts body p rest -> imported false (JImport :: ts) (target p)
| ImLater b t b' ts x : (t <> JImport \/ b = true) -> flag b t b' -> imported b' ts x -> imported b (t :: ts) x
| ImAfter ts body p rest x : good_import ts body p rest -> imported false rest x -> imported false (JImport :: ts) x
| ImBad ts x : ~ (exists body p rest, good_import ts body p rest) -> imported false ts x -> imported false (JImport :: ts) x.
End Spec.
