(** Vocabulary for C27 and C28: which texts survive. *)
From Verif Require Import Base Js JsSpec.
From Coq Require Import String ZArith NArith Bool List.
Import ListNotations.
Open Scope list_scope.
Open Scope N_scope.

(** printable ASCII or one of the control characters with a one letter escape *)
Definition plain_char (c : N) : Prop := 32 <= c <= 126 \/ In c [0; 8; 9; 10; 11; 12; 13].
(** the token [t] written as [p]: words and broken strings have no backslash, and
    strings have plain characters *)
Definition tame (t : jtok) (p : str) : Prop :=
  match t with
  | JIdent _ | JAs | JFrom | JImport => ~ In 92 p
  | JString v => Forall plain_char v
  | JInvalid (c :: _) => c = 47 \/ ~ In 92 p
  | _ => True
  end.
(** as [js_spelled], with a property of every piece *)
Inductive js_spelled_as (P : jtok -> str -> Prop) : list jtok -> str -> Prop :=
| JaEnd : js_spelled_as P [JEof] []
| JaMore t ts p rest : p <> [] -> js_denotes t p rest -> P t p -> js_spelled_as P ts rest -> js_spelled_as P (t :: ts) (p ++ rest).
(** the same token up to the text of comments *)
Inductive same_code : jtok -> jtok -> Prop :=
| SameComment v w : no_end w -> same_code (JComment v) (JComment w)
| SameToken t : same_code t t.
(** no string, escape, comment or unusual line terminator *)
Definition bare (s : str) : Prop :=
  ~ In 34 s /\ ~ In 39 s /\ ~ In 92 s /\ ~ In 8232 s /\ ~ In 8233 s /\ (forall a b, s <> a ++ 47 :: 47 :: b) /\ (forall a b, s <> a ++ 47 :: 42 :: b).
