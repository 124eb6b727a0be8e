From Verif Require Import Base Graph IoUtil IoUtilSpec.
From Coq Require Import List NArith ZArith Bool.
Import ListNotations.
Open Scope list_scope.
Open Scope Z_scope.

(** peek(-1) before the end of the file was seen gives all but the last
    character of what happens to be buffered *)
Lemma peek_all_wrong : exists text cs answers p1 a p2,
  Forall sensible cs /\ calls cs (open_peekable text) = (answers, p1) /\ peek (-1) p1 = (a, p2) /\ a <> answer (-1) text /\ consumed cs answers = [].
Proof.
  exists [97; 98; 99]%N, [Peek 2]. eexists. eexists. exists (Some [97%N]). eexists. split; [constructor; [vm_compute; intros [=]|constructor]|].
  split; [vm_compute; reflexivity|]. split; [vm_compute; reflexivity|]. split; [vm_compute; intros [=]|reflexivity].
Qed.
(** on a carriage return and line feed the reader claims to be at the end *)
Lemma crlf_wrong : exists text fuel p1,
  pre_peek fuel 1 (open_peekable text) = Ret (None, p1) /\ (length text = 4)%nat /\ (exists s p2, pre_read 9 (-1) (open_peekable text) = Ret (Some s, p2) /\ (length s = 3)%nat).
Proof.
  exists [13; 10; 97; 98]%N, 9%nat. eexists. split; [vm_compute; reflexivity|]. split; [reflexivity|]. eexists. eexists. split; [vm_compute; reflexivity|reflexivity].
Qed.
Lemma read_zero_fails text : pre_read 9 0 (open_peekable text) = Raise IndexError.
Proof. reflexivity. Qed.
Lemma mixed_example :
  calls [Peek 2; Read 1; Peek 3; Read 2; Read (-1); Read 1] (open_peekable [97; 98; 99; 100]%N) =
  ([Some [97; 98]; Some [97]; Some [98; 99; 100]; Some [98; 99]; Some [100]; None]%N, mkPeekable [] [] true).
Proof. reflexivity. Qed.
Lemma pre_example :
  pre_calls 2 [Peek 2; Read 1; Peek 3; Read 2; Read 5; Read 1] (open_peekable [13; 98; 12; 55296]%N) =
  Ret [Some [10; 98]; Some [10]; Some [98; 10; 65533]; Some [98; 10]; Some [65533]; None]%N.
Proof. reflexivity. Qed.
