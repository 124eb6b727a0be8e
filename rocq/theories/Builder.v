(** The token pipeline.  build/css/builder.py, build/js/builder.py and
    build/html/builder.py are the same class up to the names of the types; the
    manipulator interface is that of css/manipulator.py, js/manipulator.py and
    html/manipulator.py.

    Simplification: the attributes of all manipulators are one state [S]; a method
    is a function of the token and of that state that may raise. *)
From Verif Require Import Base Graph.
From Coq Require Import List NArith Bool.
Import ListNotations.
Open Scope list_scope.

Section Builder.
Context {tok S : Type}.
(** css/manipulator.py 19-50 *)
Record manip := { start_mark : tok -> S -> res (bool * S); continue_mark : tok -> S -> res (option (list tok) * S) }.
Context (ms : list manip).
(** builder.py 11-24; the attributes of the manipulators are kept here *)
Record builder := { b_out : list tok; b_mark : option manip; b_st : S }.
Definition new_builder (s : S) : builder := {| b_out := []; b_mark := None; b_st := s |}.
(** 46-49 *)
Fixpoint find_mark (l : list manip) (t : tok) (s : S) : res (option manip * S) :=
  match l with
  | [] => Ret (None, s)
  | m :: r =>
      match start_mark m t s with
      | Raise e => Raise e
      | Ret (true, s') => Ret (Some m, s')
      | Ret (false, s') => find_mark r t s'
      end
  end.
(** 43-58; the fuel bounds the loop *)
Fixpoint loop (fuel : nat) (stack : list tok) (b : builder) : res builder :=
  match stack with
  | [] => Ret b
  | t :: rest =>
      match fuel with
      | O => Raise OutOfFuel
      | Datatypes.S k =>
          let continue m s :=
            match continue_mark m t s with
            | Raise e => Raise e
            | Ret (Some repl, s') => loop k (repl ++ rest) {| b_out := b_out b; b_mark := None; b_st := s' |}
            | Ret (None, s') => loop k rest {| b_out := b_out b; b_mark := Some m; b_st := s' |}
            end in
          match b_mark b with
          | Some m => continue m (b_st b)
          | None =>
              match find_mark ms t (b_st b) with
              | Raise e => Raise e
              | Ret (None, s') => loop k rest {| b_out := b_out b ++ [t]; b_mark := None; b_st := s' |}
              | Ret (Some m, s') => continue m s'
              end
          end
      end
  end.
(** 37-42 *)
Definition handle_token (fuel : nat) (t : tok) (b : builder) : res builder := loop fuel [t] b.
(** 26-35 *)
Definition consume_tokens (b : builder) : list tok * builder :=
  (b_out b, {| b_out := []; b_mark := b_mark b; b_st := b_st b |}).
(** manipulate_and_serialize.py (css 32-37, js 34-37, html the same): every token is
    handled and what it produced is written at once *)
Fixpoint pump (fuel : nat) (ts : list tok) (b : builder) : res (list tok * builder) :=
  match ts with
  | [] => Ret ([], b)
  | t :: r =>
      match handle_token fuel t b with
      | Raise e => Raise e
      | Ret b1 =>
          let '(o, b2) := consume_tokens b1 in
          match pump fuel r b2 with Raise e => Raise e | Ret (o2, b3) => Ret (o ++ o2, b3) end
      end
  end.
End Builder.
Arguments manip : clear implicits. Arguments builder : clear implicits.
