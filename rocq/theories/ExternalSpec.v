(** Vocabulary for C17 and C18. *)
From Verif Require Import Base PyStr Hot HotGraphs External.
From Coq Require Import String ZArith Bool List.
Import ListNotations.
Open Scope list_scope.

(** the bytes [c] have the integrity "type-digest" *)
Definition verified (hash : str -> option (str -> str)) (integrity c : str) : Prop :=
  exists t d h, integrity = t ++ lit "-" ++ d /\ hash t = Some h /\ d = h c.

(** a configuration as loaded: keyed by relpath *)
Definition config_ok (cfg : @dict external) : Prop := NoDup (dkeys cfg) /\ forall k x, In (k, x) cfg -> x_relpath x = k.

(** [moment cfg w s]: the folder is [s] at some moment of a check started in [w]: while
    the files no longer configured are removed, or while the handlers run *)
Inductive moment hash stat (cfg : @dict external) (w : ext_world) : fs -> Prop :=
| m_removing keys1 keys2 r s : cfg <> [] -> dkeys (old_state w) = keys1 ++ keys2 -> remove_old cfg keys1 (w_fs w) = (r, s) -> moment hash stat cfg w s
| m_handling s1 temps ps s : cfg <> [] -> remove_old cfg (dkeys (old_state w)) (w_fs w) = (XRet tt, s1) ->
    fresh cfg s1 temps -> length temps = length (to_handle stat s1 (old_state w) (map snd cfg)) ->
    pool_steps hash (start (to_handle stat s1 (old_state w) (map snd cfg)) temps, s1) (ps, s) -> moment hash stat cfg w s.

(** histories of edits of the folder, finished checks and crashed checks, each
    check with its own configuration *)
Inductive ext_history hash stat : ext_world -> Prop :=
| eh_start s : ext_history hash stat (mkExt s None)
| eh_edit w s : ext_history hash stat w -> ext_history hash stat (mkExt s (w_state w))
| eh_check w cfg ps r w' : ext_history hash stat w -> config_ok cfg -> check_files hash stat cfg w ps r w' -> ext_history hash stat w'
| eh_crash w cfg s : ext_history hash stat w -> config_ok cfg -> moment hash stat cfg w s -> ext_history hash stat (mkExt s (w_state w)).
