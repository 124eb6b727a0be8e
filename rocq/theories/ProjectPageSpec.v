(** Vocabulary for C70: what is served for a page. *)
From Verif Require Import Base Graph Json PyPath PyNorm Builder Handlers Html HtmlSpec.
From Coq Require Import String ZArith NArith Bool List.
Import ListNotations.
Open Scope list_scope.

(** [shows h p ver tpl evs out]: the events [evs] of the page [src/public/p.html] are written as
    the tokens [out]: hints get the host [h], references the version [ver] of their file, and
    the templates are the files [tpl].  There are no inline scripts and stylesheets. *)
Inductive shows (h p : str) (ver tpl : str -> option str) : list event -> list htoken -> Prop :=
| ShEnd : shows h p ver tpl [] []
| ShSame t evs out : shows h p ver tpl evs out -> shows h p ver tpl (Same t :: evs) (t :: out)
| ShSaid x evs out : shows h p ver tpl evs out -> shows h p ver tpl (Said x :: evs) (HChars x :: out)
| ShHint name attrs n u attrs' evs out : hint_url h p attrs n u -> retagged attrs n u attrs' -> shows h p ver tpl evs out -> shows h p ver tpl (Hint name attrs n :: evs) (HEmpty name attrs' :: out)
| ShRef t attrs n path v t' evs out : ver path = Some v -> new_ref t n (lit "/" ++ path ++ lit "?v=" ++ quote_plus v ++ lit "&pv=1.3.2") t' -> shows h p ver tpl evs out ->
    shows h p ver tpl (Ref t attrs n path :: evs) (t' :: out)
| ShTemplate path text evs out : tpl path = Some text -> shows h p ver tpl evs out -> shows h p ver tpl (Template path text :: evs) out.
