(** C25: what version stamping should do to a stylesheet. *)
From Verif Require Import Base PyPath Css CssSpec.
From Coq Require Import String ZArith NArith Bool List.
Import ListNotations.
Open Scope list_scope.
Open Scope N_scope.

Section Spec.
Context {F : Type}.
Notation token := (@token F).
(** the places of a stylesheet where an url is written: url tokens, and the strings
    after [url(] up to the closing parenthesis *)
Inductive at_url : bool -> token -> str -> Prop :=
| AtUrl v : at_url false (TUrl v) v
| AtString v : at_url true (TString v) v.
Inductive next_in_url : bool -> token -> bool -> Prop :=
| NextOpen n : is_url n -> next_in_url false (TFunction n) true
| NextClose : next_in_url true TRParen false
| NextOther b t : (b = false -> forall n, t = TFunction n -> ~ is_url n) -> (b = true -> t <> TRParen) -> next_in_url b t b.
(** root relative, without a query, and not the stylesheet itself *)
Definition wants_version (relpath url : str) : Prop :=
  exists rel, url = 47 :: rel /\ ~ In 63 url /\ join_path (lit "src") [lit "public"; rel] <> relpath.
Definition versioned (read : str -> option str) (url : str) (out : str) : Prop :=
  exists rel hash, url = 47 :: rel /\ read (join_path (lit "out") [lit "www"; rel ++ lit ".hash"]) = Some hash /\
    out = url ++ lit "?v=" ++ quote_plus hash ++ lit "&pv=" ++ PROCESSOR_VERSION.
(** [stamped in_url ts out] *)
Inductive stamped (relpath : str) (read : str -> option str) : bool -> list token -> list token -> Prop :=
| StEnd b : stamped relpath read b [] []
| StVersion b t v v' ts out : at_url b t v -> wants_version relpath v -> versioned read v v' -> stamped relpath read b ts out ->
    stamped relpath read b (t :: ts) (match t with TUrl _ => TUrl v' | _ => TString v' end :: out)
| StSame b b' t ts out : (forall v, at_url b t v -> ~ wants_version relpath v) -> next_in_url b t b' -> stamped relpath read b' ts out ->
    stamped relpath read b (t :: ts) (t :: out).
(** the hash files that the urls of the stylesheet need *)
Inductive needs (relpath : str) : bool -> list token -> str -> Prop :=
| NeedHere b t rel ts : at_url b t (47 :: rel) -> wants_version relpath (47 :: rel) ->
    needs relpath b (t :: ts) (join_path (lit "out") [lit "www"; rel ++ lit ".hash"])
| NeedLater b t b' ts h : next_in_url b t b' -> needs relpath b' ts h -> needs relpath b (t :: ts) h.
End Spec.
