(** Vocabulary for C19 and C20: calls and what a faithful reader answers. *)
From Verif Require Import Base Graph IoUtil.
From Coq Require Import List NArith ZArith Bool.
Import ListNotations.
Open Scope list_scope.

Inductive call := Read (n : Z) | Peek (n : Z).

(** what the callers of the peekable reader see of a list of calls *)
Fixpoint calls (cs : list call) (p : peekable) : list (option str) * peekable :=
  match cs with
  | [] => ([], p)
  | c :: r =>
      let '(a, p1) := match c with Read n => read n p | Peek n => peek n p end in
      let '(l, p2) := calls r p1 in (a :: l, p2)
  end.
(** the pieces that the reads among them returned, concatenated *)
Fixpoint consumed (cs : list call) (answers : list (option str)) : str :=
  match cs, answers with
  | Read _ :: r, Some s :: l => s ++ consumed r l
  | _ :: r, _ :: l => consumed r l
  | _, _ => []
  end.

(** A reader over a text: every call is answered from the text that is left,
    with its first [n] characters or all of it for a negative [n].  At the end of
    the text the answer is [None]. *)
Definition upto (n : Z) (text : str) : str := if Z.ltb n 0 then text else firstn (Z.to_nat n) text.
Definition beyond (n : Z) (text : str) : str := if Z.ltb n 0 then [] else skipn (Z.to_nat n) text.
Definition answer (n : Z) (text : str) : option str := match text with [] => None | _ => Some (upto n text) end.
Fixpoint ideal (cs : list call) (text : str) : list (option str) :=
  match cs with
  | [] => []
  | Read n :: r => answer n text :: ideal r (beyond n text)
  | Peek n :: r => answer n text :: ideal r text
  end.
(** read everything, or up to [n] characters *)
Definition sensible (c : call) : Prop := match c with Read n => (-1 <= n)%Z | Peek n => (0 <= n)%Z end.
Definition at_least_one (c : call) : Prop := match c with Read n | Peek n => (0 < n)%Z end.

(** the same for the preprocessing reader; its internal loops get enough fuel *)
Fixpoint pre_calls (fuel : nat) (cs : list call) (p : peekable) : res (list (option str)) :=
  match cs with
  | [] => Ret []
  | c :: r =>
      match (match c with Read n => pre_read fuel n p | Peek n => pre_peek fuel n p end) with
      | Raise e => Raise e
      | Ret (a, p1) => match pre_calls fuel r p1 with Raise e => Raise e | Ret l => Ret (a :: l) end
      end
  end.
(** no carriage return is followed by a line feed *)
Definition no_crlf (s : str) : Prop := forall a b, s <> a ++ 13%N :: 10%N :: b.
(** the substitution of one character: form feed and carriage return become a
    line feed, surrogates the replacement character *)
Definition subst1 (c : N) : N :=
  if N.eqb c 13 || N.eqb c 12 then 10%N else if N.leb 55296 c && N.leb c 57343 then 65533%N else c.
