(** Properties C08, C16, C49, C53 and C54: what a build finds changed, and
    sequences of builds, edits and crashes. *)
From Verif Require Import Base Graph GraphSpec Hot HotSpec HotMain HotExamples HotGraphs HotResultSpec Cold ColdSpec ColdProofs ColdMain ColdHistory ColdExamples.
From Coq Require Import String ZArith Bool List Relations.
Import ListNotations.
Open Scope list_scope.

(** C08 *)
Theorem C08_classification : forall D sig files, well_formed D -> NoDup files -> (forall f, In f files -> sig f <> None) ->
  exists changed added deleted, classify D sig files (dkeys D) [] [] = Ret (changed, added, deleted) /\
    (forall f s, dget f changed = Some s <-> In f files /\ sig f = Some s /\ exists old, api_meta D f = Some old /\ old <> s) /\
    (forall f s, dget f added = Some s <-> In f files /\ sig f = Some s /\ api_meta D f = None) /\
    (forall f, In f deleted <-> api_meta D f <> None /\ ~ In f files) /\
    NoDup (dkeys changed) /\ NoDup (dkeys added) /\ NoDup deleted.
Proof. exact classify_partition. Qed.
Print Assumptions C08_classification.
Theorem C08_exactly_once : forall D sig files changed added deleted, well_formed D -> NoDup files ->
  classify D sig files (dkeys D) [] [] = Ret (changed, added, deleted) -> forall f,
  (In f (dkeys changed) -> ~ In f (dkeys added) /\ ~ In f deleted) /\ (In f (dkeys added) -> ~ In f deleted) /\
  (In f files -> api_meta D f <> None -> api_meta D f = sig f <-> ~ In f (dkeys changed) /\ ~ In f (dkeys added) /\ ~ In f deleted) /\
  (In f files \/ api_meta D f <> None -> In f (dkeys changed) \/ In f (dkeys added) \/ In f deleted \/ api_meta D f = sig f).
Proof. exact classify_exclusive. Qed.
Print Assumptions C08_exactly_once.
(** the project of ColdExamples after edits of src/a: one changed file, one
    added and one deleted *)
Definition c08_folder : fs := fs_set (lit "src/n") (lit "N") (fs_del (lit "src/g") (p_fs w_edited)).
Example C08_case : match classify (p_D w_edited) (w_stat c08_folder) [a_; c_; p_; lit "src/n"] (dkeys (p_D w_edited)) [] [] with
  | Ret (ch, ad, de) => (dkeys ch, dkeys ad, de) | Raise _ => ([], [], []) end = ([a_], [lit "src/n"], [g_]).
Proof. vm_compute. reflexivity. Qed.

(** C49 *)
Theorem C49_files_kept : forall build scan stat constants dev p r p1,
  in_src constants = true -> writes_out build -> sound_project p ->
  cold_build build scan stat constants dev p r p1 ->
  (forall q c, is_out q = false -> p_fs p q = Some c -> p_fs p1 q = Some c) /\
  (forall q c, is_out q = false -> p_fs p q = None -> p_fs p1 q = Some c ->
     exists g x s, scan g s = Some x /\ In (q, c) (f_placeholders x) /\ depends (p_P p1) g q).
Proof. exact cold_keeps. Qed.
Print Assumptions C49_files_kept.
Example C49_case : p_fs w_zero p_ = None /\ p_fs w_p1 p_ = Some (lit "ph") /\ depends (p_P w_p1) g_ p_ /\
  cold_build (w_build false) w_scan w_stat w_const false w_zero (fst (the w_first)) w_p1.
Proof. split; [reflexivity|]. split; [vm_compute; reflexivity|]. split; [refine (proj1 (mem_In p_ (api_children (p_P w_p1) g_)) _); vm_compute; reflexivity|exact (proj1 (proj2 w_history1))]. Qed.
(** A placeholder that was deleted cannot be generated again by a build that also
    scans its generator: such a build fails. *)
Theorem C49_regeneration_fails : forall build scan stat constants dev p,
  stat_ok stat -> in_src constants = true -> sound_project p ->
  forall g x q c, In (q, c) (f_placeholders x) -> (forall s, scan g s = Some x) -> in_src g = true -> p_fs p g <> None ->
  api_meta (p_D p) g <> stat (p_fs p) g -> In q (dkeys (p_D p)) -> p_fs p q = None ->
  forall r p1, ~ cold_build build scan stat constants dev p r p1.
Proof. exact cold_recreated. Qed.
Print Assumptions C49_regeneration_fails.
Example C49_regeneration_case : project_history w_build w_scan w_stat w_const false (p_fs w_p1) w_lost /\ forall dev r p1, ~ cold_build (w_build dev) w_scan w_stat w_const dev w_lost r p1.
Proof. split; [exact (proj1 w_lost_history)|exact w_lost_stuck]. Qed.

(** C53 *)
Theorem C53_second_build_does_nothing : forall build scan stat constants dev p r p1,
  stat_ok stat -> placeholders_ok scan constants -> in_src constants = true -> writes_out build -> sound_project p ->
  cold_build build scan stat constants dev p r p1 ->
  (forall files, lists (p_fs p1) files -> cold_build build scan stat constants dev p1 None p1) /\
  (forall r2 p2, cold_build build scan stat constants dev p1 r2 p2 -> r2 = None /\ p2 = p1).
Proof. exact cold_twice. Qed.
Print Assumptions C53_second_build_does_nothing.
Example C53_case : sound_project w_zero /\ cold_build (w_build false) w_scan w_stat w_const false w_zero (fst (the w_first)) w_p1 /\
  lists (p_fs w_p1) (dkeys (p_D w_p1)) /\ fst (the w_first) <> None.
Proof.
  split; [apply sound_empty|]. split; [exact (proj1 (proj2 w_history1))|]. split; [exact (proj2 (proj2 w_history1))|].
  assert (X : match fst (the w_first) with Some _ => true | None => false end = true) by (vm_compute; reflexivity).
  destruct (fst (the w_first)); [discriminate|discriminate X].
Qed.

(** C54 *)
Theorem C54_mode_switch : forall build scan stat constants dev p r p1,
  stat_ok stat -> placeholders_ok scan constants -> in_src constants = true -> writes_out build -> sound_project p ->
  cold_build build scan stat constants dev p r p1 -> p_fs p constants <> None ->
  p_mode p1 = Some (mode_name dev) /\
  (p_mode p <> Some (mode_name dev) -> exists w d b, r = Some w /\ In (constants, d, b) (run_log w)) /\
  (p_mode p = Some (mode_name dev) -> api_meta (p_D p) constants = stat (p_fs p) constants -> forall w, r = Some w -> ~ In constants (dkeys (run_scans w))).
Proof. exact cold_switch. Qed.
Print Assumptions C54_mode_switch.
Theorem C54_history_up_to_date : forall build scan stat constants,
  stat_ok stat -> stat_detects stat -> placeholders_ok scan constants -> in_src constants = true ->
  (forall dev, reads_declared (build dev)) -> (forall dev, idempotent (build dev)) -> (forall dev, writes_out (build dev)) -> mode_only build constants ->
  forall dev last p r p1 dev', project_history build scan stat constants dev last p ->
  cold_build (build dev') scan stat constants dev' p r p1 ->
  (forall w, r = Some w -> honest_builds (p_D p) (p_O p) (p_P p) (run_scans w) (run_deleted w) last (run_env w) (run_log w) (p_D p1) (p_O p1)) ->
  up_to_date (build dev') (p_D p1) (p_O p1) (p_fs p1) /\ (forall f, In f (dkeys (p_D p1)) <-> in_src f = true /\ p_fs p1 f <> None) /\
  (forall files, lists (p_fs p1) files -> cold_build (build dev') scan stat constants dev' p1 None p1) /\
  (forall r2 p2, cold_build (build dev') scan stat constants dev' p1 r2 p2 -> r2 = None /\ p2 = p1).
Proof. exact history_up_to_date. Qed.
Print Assumptions C54_history_up_to_date.
(** production build, edit of src/a, development build *)
Example C54_world : stat_ok w_stat /\ stat_detects w_stat /\ placeholders_ok w_scan w_const /\ in_src w_const = true /\
  (forall dev, reads_declared (w_build dev)) /\ (forall dev, idempotent (w_build dev)) /\ (forall dev, writes_out (w_build dev)) /\ mode_only w_build w_const.
Proof. split; [apply w_stat_ok|]. split; [apply w_stat_ok|]. split; [exact w_scan_ok|]. split; [reflexivity|exact w_build_ok]. Qed.
Example C54_history : project_history w_build w_scan w_stat w_const true (p_fs w_p2) w_p2 /\
  p_fs w_p1 (w_target c_) = Some (lit "prod") /\ p_fs w_p2 (w_target c_) = Some (lit "dev") /\
  p_fs w_p1 (w_target a_) = Some (lit "A") /\ p_fs w_p2 (w_target a_) = Some (lit "A2") /\ p_fs w_p2 (w_target g_) = Some (lit "G").
Proof. split; [exact (proj1 (proj2 (proj2 w_history2)))|]. repeat (split; [vm_compute; reflexivity|]). vm_compute. reflexivity. Qed.

(** C16 *)
Theorem C16_recovered_partial : forall build D O P fs_old, project_graphs D O P -> forall stat touched folder scans newph changed added deleted fs0 e l fs1 D1 O1 P1,
  attempts build D O P fs_old touched folder -> (forall f o, depends O f o -> is_out o = true) ->
  (forall f, In f touched -> In f (dkeys scans) \/ In f deleted) ->
  (forall q, is_out q = true -> fs0 q = folder q) -> (forall f, In f (dkeys D) -> ~ In f (dkeys scans) -> ~ In f deleted -> fs0 f = fs_old f) ->
  hot_rebuild build stat D O P scans newph changed added deleted fs0 e l fs1 D1 O1 P1 ->
  reads_declared build -> idempotent build -> writes_out build -> up_to_date build D O fs_old ->
  honest_builds D O P scans deleted fs_old e l D1 O1 -> up_to_date build D1 O1 fs1.
Proof. exact recovered. Qed.
Print Assumptions C16_recovered_partial.
Example C16_case : attempts (w_build false) (p_D w_p1) (p_O w_p1) (p_P w_p1) (p_fs w_p1) [a_] w_torn /\
  (exists r p2, cold_build (w_build false) w_scan w_stat w_const false w_retried (Some r) p2 /\
    run_scans r = w_scans1 /\ run_deleted r = [] /\ p_fs p2 (w_target a_) = Some (lit "A2")).
Proof. exact w_crash. Qed.
(** A crash after the mode file was written: the next build does nothing although the
    constants are those of the other mode. *)
Theorem C16_mode_refuted : exists build scan stat constants p mode1 changed1,
  project_history build scan stat constants false (p_fs p) p /\ up_to_date (build false) (p_D p) (p_O p) (p_fs p) /\
  mode_step constants true (stat (p_fs p)) (p_fs p) (p_mode p) [] [] = Ret (changed1, mode1) /\
  cold_build (build true) scan stat constants true (with_mode p mode1) None (with_mode p mode1) /\
  ~ up_to_date (build true) (p_D p) (p_O p) (p_fs p).
Proof. exact mode_crash. Qed.
Print Assumptions C16_mode_refuted.
(** A crash after the dependency graph was stored: the outputs are never recorded,
    and remain when their source is deleted. *)
Theorem C16_stores_refuted : exists build scan stat constants p0 r p1 f o p2 w,
  project_history build scan stat constants false (p_fs p0) p0 /\ cold_build (build false) scan stat constants false p0 r p1 /\
  cold_build (build false) scan stat constants false (half_stored p0 p1) None (half_stored p0 p1) /\
  depends (p_O p1) f o /\
  cold_build (build false) scan stat constants false (with_fs (half_stored p0 p1) (fs_del f (p_fs p1))) (Some w) p2 /\
  ~ In f (dkeys (p_D p2)) /\ p_fs p2 o <> None.
Proof. exact store_crash. Qed.
Print Assumptions C16_stores_refuted.
(** A crash after a placeholder was written: its generator is never recorded. *)
Theorem C16_placeholder_refuted : exists build scan stat constants s g x q c r p1 r2 p2,
  cold_build (build false) scan stat constants false (mkProject s None empty_graph empty_graph empty_graph) r p1 /\
  scan g s = Some x /\ In (q, c) (f_placeholders x) /\ s q = None /\ depends (p_P p1) g q /\
  cold_build (build false) scan stat constants false (mkProject (fs_set q c s) None empty_graph empty_graph empty_graph) r2 p2 /\
  In q (dkeys (p_D p2)) /\ (forall y, ~ depends (p_P p2) y q).
Proof. exact placeholder_crash. Qed.
Print Assumptions C16_placeholder_refuted.
