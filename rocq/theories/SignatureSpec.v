(** Vocabulary for C78: looking at the signature of a file twice. *)
From Verif Require Import Base Signature.
From Coq Require Import String ZArith NArith Bool List.
Import ListNotations.
Open Scope list_scope.

(** no file has a time in the future, and each name has an inode *)
Definition in_time (s : disk) : Prop := (forall i k m, d_inodes s i = Some (k, m) -> (m <= d_clock s)%N) /\ forall p i, d_names s p = Some i -> d_inodes s i <> None.
(** the disk before anything happened *)
Definition new_disk : disk := mkDisk (fun _ => None) (fun _ => None) 0%N.
(** what happens after a look at [s], which is not in the same moment (of the clock) as the look *)
Definition after_look (moves : bool) (s s' : disk) : Prop := changes (d_clock s) moves s s'.
(** not a symbolic link *)
Definition plain (s : disk) (p : str) : Prop := forall q m i, lstat s p <> Some (Points q, m, i).
