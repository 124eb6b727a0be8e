(** Vocabulary for C76: files and folders. *)
From Verif Require Import Base Graph Prune.
From Coq Require Import String ZArith NArith Bool List.
Import ListNotations.
Open Scope list_scope.

(** a relative path whose parts are not empty *)
Definition proper (x : str) : Prop := x <> [] /\ forall a r, x = a ++ 47%N :: r -> a <> [] /\ last a 0%N <> 47%N /\ r <> [].
(** the folder [d] is one of those around [x] *)
Definition inside (d x : str) : Prop := exists r, x = d ++ 47%N :: r.
(** the folders around all files and folders exist *)
Definition sound (t : tree) : Prop := forall x, In x (t_files t) \/ In x (t_dirs t) -> proper x /\ forall d, inside d x -> In d (t_dirs t).
(** somewhere in the folder is a file *)
Definition occupied (t : tree) (d : str) : Prop := exists f, In f (t_files t) /\ inside d f.
(** there are no folders without files *)
Definition tidy (t : tree) : Prop := forall d, In d (t_dirs t) -> occupied t d.
(** the files after a rebuild *)
Definition files_after (outs written still : list str) (t : tree) (f : str) : Prop := (In f (t_files t) /\ ~ In f outs \/ In f written) /\ ~ In f still.
