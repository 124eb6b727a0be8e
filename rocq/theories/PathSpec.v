(** Following a relative path through folders, as a reader would. *)
From Verif Require Import Base.
From Coq Require Import String NArith List.
Import ListNotations.
Open Scope list_scope.
Open Scope N_scope.

(** the name of a file or folder *)
Definition name (c : str) : Prop := c <> [] /\ c <> lit "." /\ c <> lit ".." /\ ~ In 47 c.
(** [walk here steps there]: the steps (the parts of a path between slashes) lead from
    the folder [here] to [there], without ever leaving the top folder *)
Inductive walk : list str -> list str -> list str -> Prop :=
| WalkEnd here : walk here [] here
| WalkEmpty here steps there : walk here steps there -> walk here ([] :: steps) there
| WalkDot here steps there : walk here steps there -> walk here (lit "." :: steps) there
| WalkUp here x steps there : walk here steps there -> walk (here ++ [x]) (lit ".." :: steps) there
| WalkInto here c steps there : name c -> walk (here ++ [c]) steps there -> walk here (c :: steps) there.
(** the text of a path *)
Fixpoint path_text (cs : list str) : str :=
  match cs with [] => [] | [c] => c | c :: r => c ++ [47] ++ path_text r end.
