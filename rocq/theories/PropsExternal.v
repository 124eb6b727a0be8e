(** Properties C17 and C18: external files. *)
From Verif Require Import Base PyStr Hot HotGraphs ColdSpec ColdExamples External ExternalSpec ExternalProofs ExternalExamples.
From Coq Require Import String ZArith Bool List.
Import ListNotations.
Open Scope list_scope.

(** C17.  At every moment of a check, whatever the servers answer and however
    the handlers are interleaved, a configured file holds what it held, nothing, or
    verified contents; files that are neither configured nor recorded are untouched. *)
Theorem C17_every_moment : forall hash stat cfg w s, config_ok cfg -> moment hash stat cfg w s ->
  (forall k x, dget k cfg = Some x -> s k = w_fs w k \/ s k = None \/ exists c, s k = Some c /\ verified hash (x_integrity x) c) /\
  (forall q c, ~ In q (dkeys cfg) -> ~ In q (dkeys (old_state w)) -> w_fs w q = Some c -> s q = Some c).
Proof. exact moment_safe. Qed.
Print Assumptions C17_every_moment.
Example C17_moment_case : moment i_hash w_stat i_cfg i_w0 (fs_del (lit "lib/a") (fs_set ta (lit "AA") (fs_set ta [] (w_fs i_w0)))) /\ w_fs i_w0 (lit "lib/a") = Some (lit "bad").
Proof. split; [exact i_moment|reflexivity]. Qed.
(** When a check ends, successfully or not, a configured file holds what it held or
    verified contents, and no temporary file is left. *)
Theorem C17_at_the_end : forall hash stat cfg w ps r w', config_ok cfg -> check_files hash stat cfg w ps r w' ->
  (forall k x, dget k cfg = Some x -> w_fs w' k = w_fs w k \/ exists c, w_fs w' k = Some c /\ verified hash (x_integrity x) c) /\
  (forall q, ~ In q (dkeys cfg) -> w_fs w q = None -> w_fs w' q = None) /\
  (forall q c, ~ In q (dkeys cfg) -> ~ In q (dkeys (old_state w)) -> w_fs w q = Some c -> w_fs w' q = Some c).
Proof. exact check_end. Qed.
Print Assumptions C17_at_the_end.
(** what passes the integrity check *)
Theorem C17_integrity_sound : forall hash s p i, ensure_integrity hash s p i = XRet tt -> exists c, s p = Some c /\ verified hash i c.
Proof. exact ensure_ok. Qed.
Print Assumptions C17_integrity_sound.
Theorem C17_integrity_complete : forall hash s p i c, s p = Some c -> verified hash i c ->
  (forall t h c, hash t = Some h -> is_ascii (h c) = true /\ ~ In 45%N (h c)) -> (forall t h, hash t = Some h -> ~ In 45%N t) ->
  ensure_integrity hash s p i = XRet tt.
Proof. exact ensure_complete. Qed.
Print Assumptions C17_integrity_complete.
Example C17_end_case : check_files i_hash w_stat i_cfg i_w0 i_ps (XRet tt) i_w1 /\ w_fs i_w1 (lit "lib/a") = Some (lit "AA") /\ w_fs i_w1 ta = None.
Proof. split; [exact i_check|]. split; reflexivity. Qed.
(** configurations are as [config_ok] says *)
Theorem C17_configuration : forall data, config_ok (load_external_files data).
Proof. exact load_ok. Qed.
Print Assumptions C17_configuration.

(** C18.  After any history of edits, crashes and checks with changing
    configurations, a successful check leaves every configured file verified and
    no file behind that was recorded but is no longer configured. *)
Theorem C18_all_verified : forall hash stat, stat_detects stat -> forall w cfg ps w', ext_history hash stat w -> config_ok cfg ->
  check_files hash stat cfg w ps (XRet tt) w' -> forall k x, dget k cfg = Some x -> exists c, w_fs w' k = Some c /\ verified hash (x_integrity x) c.
Proof. exact history_verified. Qed.
Print Assumptions C18_all_verified.
Theorem C18_removed : forall hash stat cfg w ps w', config_ok cfg -> cfg <> [] -> check_files hash stat cfg w ps (XRet tt) w' ->
  forall k, In k (dkeys (old_state w)) -> ~ In k (dkeys cfg) -> w_fs w' k = None.
Proof. exact removed_gone. Qed.
Print Assumptions C18_removed.
(** A second check does nothing, if the first had to handle some file or no file
    was removed from the configuration. *)
Theorem C18_second_check_partial : forall hash stat cfg w ps w', stat_ok stat -> config_ok cfg -> check_files hash stat cfg w ps (XRet tt) w' -> cfg <> [] ->
  (ps <> [] \/ forall k, In k (dkeys (old_state w)) -> In k (dkeys cfg)) ->
  check_files hash stat cfg w' [] (XRet tt) w' /\ forall ps2 r2 w2, check_files hash stat cfg w' ps2 r2 w2 -> ps2 = [] /\ r2 = XRet tt /\ w2 = w'.
Proof. exact second_check. Qed.
Print Assumptions C18_second_check_partial.
Example C18_case : ext_history i_hash w_stat i_w1 /\ check_files i_hash w_stat i_cfg i_w0 i_ps (XRet tt) i_w1 /\ i_ps <> [] /\ stat_ok w_stat /\ stat_detects w_stat.
Proof. split; [exact i_history|]. split; [exact i_check|]. split; [discriminate|exact w_stat_ok]. Qed.
(** Otherwise the second check always fails. *)
Theorem C18_second_check_fails : forall hash stat cfg w w' k, config_ok cfg -> check_files hash stat cfg w [] (XRet tt) w' -> cfg <> [] ->
  In k (dkeys (old_state w)) -> ~ In k (dkeys cfg) -> forall ps r w2, check_files hash stat cfg w' ps r w2 -> r = XRaise (Py FileNotFoundError).
Proof. exact removed_stuck. Qed.
Print Assumptions C18_second_check_fails.
Theorem C18_second_check_refuted : exists hash stat w cfg w', ext_history hash stat w /\ config_ok cfg /\ check_files hash stat cfg w [] (XRet tt) w' /\
  forall ps r w2, check_files hash stat cfg w' ps r w2 -> r = XRaise (Py FileNotFoundError).
Proof. exact stuck_example. Qed.
Print Assumptions C18_second_check_refuted.
(** With an empty configuration nothing is checked and nothing is removed. *)
Theorem C18_empty_configuration : forall hash stat w ps r w', check_files hash stat [] w ps r w' -> ps = [] /\ r = XRet tt /\ w' = w.
Proof. exact empty_check. Qed.
Print Assumptions C18_empty_configuration.
