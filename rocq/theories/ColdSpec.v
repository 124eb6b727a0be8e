(** Vocabulary for the properties of cold builds (C08, C16, C49, C53, C54). *)
From Verif Require Import Base Graph GraphSpec Hot HotSpec HotMain HotGraphs HotResultSpec Cold.
From Coq Require Import String ZArith Bool List.
Import ListNotations.
Open Scope list_scope.

(** ** signatures *)
(** every existing file has a signature, which changes only with the file *)
Definition stat_ok (stat : fs -> str -> option fsig) : Prop :=
  (forall s s' p, s p = s' p -> stat s p = stat s' p) /\ (forall s p, stat s p = None <-> s p = None).
(** a changed file has a changed signature *)
Definition stat_detects (stat : fs -> str -> option fsig) : Prop := forall s s' p, stat s p = stat s' p -> s p = s' p.

(** placeholders are source files and never the constants file *)
Definition placeholders_ok (scan : str -> fs -> option scan_full) (constants : str) : Prop := forall f s x p c,
  scan f s = Some x -> In (p, c) (f_placeholders x) -> in_src p = true /\ p <> constants.

(** what every project reached by builds satisfies *)
Definition sound_project (p : project) : Prop :=
  project_graphs (p_D p) (p_O p) (p_P p) /\
  (forall f, In f (dkeys (p_D p)) -> in_src f = true) /\
  (forall f o, depends (p_O p) f o -> is_out o = true).

(** [files] is a listing of the source folder *)
Definition lists (s : fs) (files : list str) : Prop := NoDup files /\ forall f, In f files <-> in_src f = true /\ s f <> None.

(** ** histories: first build, edits of the sources, and builds in either mode *)
(** The builders for development and production may differ only on the
    constants file. *)
Definition mode_only (build : bool -> str -> fs -> option build_result) (constants : str) : Prop := forall f s,
  f <> constants -> build true f s = build false f s.
(** [project_history dev last p]: [p] is a project after some builds and edits; the last
    build was in mode [dev] and left the folder [last] *)
Inductive project_history (build : bool -> str -> fs -> option build_result) (scan : str -> fs -> option scan_full) (stat : fs -> str -> option fsig) (constants : str)
  : bool -> fs -> project -> Prop :=
| h_start dev s : project_history build scan stat constants dev s (mkProject s None empty_graph empty_graph empty_graph)
| h_edit dev last p s : project_history build scan stat constants dev last p -> (forall q, is_out q = true -> s q = p_fs p q) ->
    project_history build scan stat constants dev last (mkProject s (p_mode p) (p_D p) (p_O p) (p_P p))
| h_build dev last p dev' r p1 : project_history build scan stat constants dev last p ->
    cold_build (build dev') scan stat constants dev' p r p1 ->
    (forall w, r = Some w -> honest_builds (p_D p) (p_O p) (p_P p) (run_scans w) (run_deleted w) last (run_env w) (run_log w) (p_D p1) (p_O p1)) ->
    project_history build scan stat constants dev' (p_fs p1) p1.

(** ** interrupted rebuilds *)
(** The folder when a rebuild is interrupted in state [s] of its scheduling loop:
    all files are as the finished builds left them, except outputs that were
    being cleaned and files that unfinished builds were writing. *)
Definition crash_folder (build : str -> fs -> option build_result) (D O P : graph) (scanned deleted : list str) (s : sched) (folder : fs) : Prop := forall q,
  folder q = disk s q \/ dirtied_output D O P scanned deleted q \/
  exists f r, In f (pending s) /\ build f (disk s) = Some r /\ In q (map fst (b_produced r)).
(** [attempts touched folder]: [folder] is reached from [fs_old], the folder after
    the last completed build, by edits of the sources and interrupted rebuilds;
    these rebuilds had found the files [touched] changed, added or deleted.  An
    output of a file which they did not affect was not written by them with
    other contents. *)
Inductive attempts (build : str -> fs -> option build_result) (D O P : graph) (fs_old : fs) : list str -> fs -> Prop :=
| at_start : attempts build D O P fs_old [] fs_old
| at_edit touched s s' : attempts build D O P fs_old touched s -> (forall q, is_out q = true -> s' q = s q) -> attempts build D O P fs_old touched s'
| at_crash touched fs0 scans newph deleted e m order s folder : attempts build D O P fs_old touched fs0 ->
    prepare D O P scans newph deleted = Ret (e, m) -> NoDup order -> (forall f, In f order <-> In f (e_orig e)) ->
    steps build e (init_sched e order m fs0) s -> crash_folder build D O P (dkeys scans) deleted s folder ->
    (forall f o, depends O f o -> ~ affected D P (dkeys scans) deleted f ->
       (forall g d r, In (g, d, r) (log s) -> In o (map fst (b_produced r)) -> apply_build r d o = fs_old o) /\
       (forall g r, In g (pending s) -> build g (disk s) = Some r -> ~ In o (map fst (b_produced r)))) ->
    attempts build D O P fs_old (dkeys scans ++ deleted ++ touched) folder.
