(** What a token pipeline does to a whole stream. *)
From Verif Require Import Base Graph Builder.
From Coq Require Import List NArith Bool.
Import ListNotations.
Open Scope list_scope.

Section Spec.
Context {tok S : Type}.
Notation manip := (manip tok S).
(** every manipulator declines the token *)
Inductive declined : list manip -> tok -> S -> S -> Prop :=
| DeclNil t s : declined [] t s s
| DeclCons m r t s s1 s2 : start_mark m t s = Ret (false, s1) -> declined r t s1 s2 -> declined (m :: r) t s s2.
(** [m] is the first manipulator that marks the token *)
Inductive marked : list manip -> tok -> S -> manip -> S -> Prop :=
| MarkHere m r t s s1 : start_mark m t s = Ret (true, s1) -> marked (m :: r) t s m s1
| MarkLater m m' r t s s1 s2 : start_mark m t s = Ret (false, s1) -> marked r t s1 m' s2 -> marked (m :: r) t s m' s2.
(** the mark takes the tokens [seg] and replaces them by [repl] *)
Inductive replaces (m : manip) : S -> list tok -> list tok -> S -> Prop :=
| ReplEnd t s repl s1 : continue_mark m t s = Ret (Some repl, s1) -> replaces m s [t] repl s1
| ReplMore t s s1 seg repl s2 : continue_mark m t s = Ret (None, s1) -> replaces m s1 seg repl s2 -> replaces m s (t :: seg) repl s2.
(** the mark takes all the tokens [seg] and is still open *)
Inductive holds (m : manip) : S -> list tok -> S -> Prop :=
| HoldsNil s : holds m s [] s
| HoldsCons t s s1 seg s2 : continue_mark m t s = Ret (None, s1) -> holds m s1 seg s2 -> holds m s (t :: seg) s2.

Variable ms : list manip.
(** [rewrites s ts out lost s']: the stream [ts] comes out as [out]; [lost] are the
    tokens inside a mark that the end of the stream left open *)
Inductive rewrites : S -> list tok -> list tok -> list tok -> S -> Prop :=
| RwEnd s : rewrites s [] [] [] s
| RwPass t s s1 ts out lost s2 : declined ms t s s1 -> rewrites s1 ts out lost s2 -> rewrites s (t :: ts) (t :: out) lost s2
| RwMark t m s s1 seg repl s2 ts out lost s3 : marked ms t s m s1 -> replaces m s1 (t :: seg) repl s2 ->
    rewrites s2 (repl ++ ts) out lost s3 -> rewrites s ((t :: seg) ++ ts) out lost s3
| RwOpen t m s s1 seg s2 : marked ms t s m s1 -> holds m s1 (t :: seg) s2 -> rewrites s (t :: seg) [] (t :: seg) s2.
End Spec.
