(** C19-C20: the text readers under the tokenizers. *)
From Verif Require Import Base Graph IoUtil IoUtilSpec IoUtilProofs IoUtilExamples.
From Coq Require Import List NArith ZArith Bool.
Import ListNotations.
Open Scope list_scope.

(** Any sequence of reads (of [n >= 0] characters, or of everything) and peeks:
    the pieces read are consecutive and form a prefix of the text, and every call
    is answered from the text that is left, peeks without consuming it; the only
    liberty is an empty string instead of [None] at the end of the text. *)
Theorem C19_reader : forall text cs answers p1,
  Forall sensible cs -> calls cs (open_peekable text) = (answers, p1) ->
  (exists rest, consumed cs answers ++ rest = text) /\
  Forall2 (fun a b => a = b \/ (a = Some [] /\ b = None)) answers (ideal cs text).
Proof. exact open_faithful. Qed.
Print Assumptions C19_reader.
Example C19_reader_ok : Forall sensible [Peek 2; Read 1; Peek 3; Read 2; Read (-1); Read 1].
Proof. repeat constructor; vm_compute; intros [=]. Qed.
(** Peeking at everything, which the docstring allows, is not covered: it is wrong. *)
Theorem C19_peek_all_refuted : exists text cs answers p1 a p2,
  Forall sensible cs /\ calls cs (open_peekable text) = (answers, p1) /\
  peek (-1) p1 = (a, p2) /\ a <> answer (-1) text /\ consumed cs answers = [].
Proof. exact peek_all_wrong. Qed.
Print Assumptions C19_peek_all_refuted.

(** On a text without a carriage return followed by a line feed, the
    preprocessing reader answers every sequence of calls exactly as a reader over
    the substituted text, and raises nothing. *)
Theorem C20_reader : forall text cs fuel,
  no_crlf text -> (2 <= fuel)%nat -> Forall at_least_one cs ->
  pre_calls fuel cs (open_peekable text) = Ret (ideal cs (map subst1 text)).
Proof. exact pre_faithful. Qed.
Print Assumptions C20_reader.
Example C20_reader_ok : no_crlf [13; 98; 12; 55296]%N.
Proof. intros a b H. destruct a as [|x [|y [|z [|w [|v a]]]]]; discriminate. Qed.
(** Reading a whole file at once substitutes everything, for every text. *)
Theorem C20_read_all : forall text, exists p1, pre_read 0 (-1) (open_peekable text) = Ret (Some (clean text), p1).
Proof. exact open_read_all. Qed.
Print Assumptions C20_read_all.
Theorem C20_crlf_refuted : exists text fuel p1,
  pre_peek fuel 1 (open_peekable text) = Ret (None, p1) /\ (length text = 4)%nat /\
  (exists s p2, pre_read 9 (-1) (open_peekable text) = Ret (Some s, p2) /\ (length s = 3)%nat).
Proof. exact crlf_wrong. Qed.
Print Assumptions C20_crlf_refuted.
Theorem C20_read_zero_refuted : forall text, pre_read 9 0 (open_peekable text) = Raise IndexError.
Proof. exact read_zero_fails. Qed.
Print Assumptions C20_read_zero_refuted.
