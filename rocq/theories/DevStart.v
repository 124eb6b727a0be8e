(** runners/build.py:68-187 and runners/dev.py:75-103: the build command with what it
    finds on disk, its failures, and the first build of the development server. *)
From Verif Require Import Base Graph GraphJson Hot HotGraphs Cold.
From Coq Require Import String ZArith NArith Bool List.
Import ListNotations.
Open Scope list_scope.

(** What build.py:101-127 (and dev.py:84-88) makes of vanillaplusjs.json: settings; [sys.exit(1)] when
    it is missing, no object or of another version, or when there is no src folder; or an exception
    (no JSON, a missing key, wrong settings). *)
Inductive config := Configured | Exits | Wrong.
(** The folder of a project between commands. [d_D], [d_O], [d_P]: the texts of
    out/dependency_graph.json, out/output_graph.json and out/placeholder_graph.json; [d_mode]: that of
    out/js_constants_mode.txt; [d_fs]: all other files. Simplification: directories are not modelled. *)
Record stored := mkStored { d_config : config; d_fs : fs; d_mode : option str; d_D : option str; d_O : option str; d_P : option str }.

Section Commands.
Context (float_parse : str -> option Z) (float_repr : Z -> str).
Context (build : bool -> str -> fs -> option build_result) (scan : str -> fs -> option scan_full) (stat : fs -> str -> option fsig) (constants : str).

(** build.py:152-168: a graph file that does not exist stands for the empty graph; [None]: an
    exception of FileDependencyGraph.load *)
Definition load_graph (text : option str) : option graph := match text with None => Some empty_graph | Some t => load float_parse t end.
Definition read_project (d : stored) : option project :=
  match load_graph (d_D d), load_graph (d_O d), load_graph (d_P d) with
  | Some gD, Some gO, Some gP => Some (mkProject (d_fs d) (d_mode d) gD gO gP)
  | _, _, _ => None
  end.

(** A build that completes: build.py:68-187. The graphs are stored (hot_incremental_rebuild.py:599-608)
    unless there was nothing to do (hot_incremental_rebuild.py:123-125). *)
Inductive completes (dev : bool) (d : stored) : stored -> Prop :=
| completes_idle p p1 : d_config d = Configured -> read_project d = Some p -> cold_build (build dev) scan stat constants dev p None p1 ->
    completes dev d (mkStored (d_config d) (p_fs p1) (p_mode p1) (d_D d) (d_O d) (d_P d))
| completes_run p r p1 : d_config d = Configured -> read_project d = Some p -> cold_build (build dev) scan stat constants dev p (Some r) p1 ->
    completes dev d (mkStored (d_config d) (p_fs p1) (p_mode p1) (Some (store float_repr (p_D p1))) (Some (store float_repr (p_O p1))) (Some (store float_repr (p_P p1)))).

(** Leaving the [with] block of the executor (hot_incremental_rebuild.py:127) waits for the files that
    were submitted: they are all built even though the loop has stopped. *)
Inductive winds_down (dev : bool) : sched -> sched -> Prop :=
| wound_down s : (forall f, In f (pending s) -> dmem f (executed s) = true) -> winds_down dev s s
| winds_on s f s' : In f (pending s) -> dmem f (executed s) = false -> winds_down dev (execute (build dev) f s) s' -> winds_down dev s s'.

(** What the steps of cold_incremental_rebuild.py:75-112 and hot_incremental_rebuild.py:90-608 leave
    of the files and of the mode file when one of them raises an exception; the graph files are then
    still as they were. [OutOfFuel] is no exception but the bound of the model's loops.
    Simplifications: scans that write placeholders and then fail are not modelled; an exception
    while outputs are unlinked (other than a missing file, 250-257) or graph files are written is
    not; for lack of directories the clean up of empty folders (459-466) may fail whenever there
    were outputs to remove. *)
Inductive gives_up (dev : bool) (p : project) : fs -> option str -> Prop :=
| up_classify files x : NoDup files -> (forall f, In f files <-> in_src f = true /\ p_fs p f <> None) ->
    classify (p_D p) (stat (p_fs p)) files (dkeys (p_D p)) [] [] = Raise x -> gives_up dev p (p_fs p) (p_mode p)
| up_mode files changed added deleted x : NoDup files -> (forall f, In f files <-> in_src f = true /\ p_fs p f <> None) ->
    classify (p_D p) (stat (p_fs p)) files (dkeys (p_D p)) [] [] = Ret (changed, added, deleted) ->
    mode_step constants dev (stat (p_fs p)) (p_fs p) (p_mode p) changed added = Raise x -> gives_up dev p (p_fs p) (p_mode p)
| up_scan files changed added deleted changed1 mode1 x : NoDup files -> (forall f, In f files <-> in_src f = true /\ p_fs p f <> None) ->
    classify (p_D p) (stat (p_fs p)) files (dkeys (p_D p)) [] [] = Ret (changed, added, deleted) ->
    mode_step constants dev (stat (p_fs p)) (p_fs p) (p_mode p) changed added = Ret (changed1, mode1) ->
    (changed1 <> [] \/ added <> [] \/ deleted <> []) ->
    scan_batch scan (dkeys changed1 ++ dkeys added) (p_fs p) [] = Raise x -> gives_up dev p (p_fs p) mode1
| up_prepare files changed added deleted changed1 mode1 fuel t full x : NoDup files -> (forall f, In f files <-> in_src f = true /\ p_fs p f <> None) ->
    classify (p_D p) (stat (p_fs p)) files (dkeys (p_D p)) [] [] = Ret (changed, added, deleted) ->
    mode_step constants dev (stat (p_fs p)) (p_fs p) (p_mode p) changed added = Ret (changed1, mode1) ->
    (changed1 <> [] \/ added <> [] \/ deleted <> []) ->
    scan_loop scan stat fuel (mkScanning (p_fs p) (dkeys changed1 ++ dkeys added) [] added) [] = Ret (t, full) ->
    prepare (p_D p) (p_O p) (p_P p) (scans_of full) (sc_new t) deleted = Raise x -> x <> OutOfFuel -> gives_up dev p (sc_fs t) mode1
| up_loop files changed added deleted changed1 mode1 fuel t full e m order s s1 s2 x : NoDup files -> (forall f, In f files <-> in_src f = true /\ p_fs p f <> None) ->
    classify (p_D p) (stat (p_fs p)) files (dkeys (p_D p)) [] [] = Ret (changed, added, deleted) ->
    mode_step constants dev (stat (p_fs p)) (p_fs p) (p_mode p) changed added = Ret (changed1, mode1) ->
    (changed1 <> [] \/ added <> [] \/ deleted <> []) ->
    scan_loop scan stat fuel (mkScanning (p_fs p) (dkeys changed1 ++ dkeys added) [] added) [] = Ret (t, full) ->
    prepare (p_D p) (p_O p) (p_P p) (scans_of full) (sc_new t) deleted = Ret (e, m) ->
    NoDup order -> (forall f, In f order <-> In f (e_orig e)) ->
    steps (build dev) e (init_sched e order m (sc_fs t)) s -> step (build dev) e s (Stopped x s1) -> winds_down dev s1 s2 ->
    gives_up dev p (disk s2) mode1
| up_late files changed added deleted changed1 mode1 fuel t full e m order s gone fs1 : NoDup files -> (forall f, In f files <-> in_src f = true /\ p_fs p f <> None) ->
    classify (p_D p) (stat (p_fs p)) files (dkeys (p_D p)) [] [] = Ret (changed, added, deleted) ->
    mode_step constants dev (stat (p_fs p)) (p_fs p) (p_mode p) changed added = Ret (changed1, mode1) ->
    (changed1 <> [] \/ added <> [] \/ deleted <> []) ->
    scan_loop scan stat fuel (mkScanning (p_fs p) (dkeys changed1 ++ dkeys added) [] added) [] = Ret (t, full) ->
    prepare (p_D p) (p_O p) (p_P p) (scans_of full) (sc_new t) deleted = Ret (e, m) ->
    NoDup order -> (forall f, In f order <-> In f (e_orig e)) ->
    steps (build dev) e (init_sched e order m (sc_fs t)) s -> finished s ->
    unlink_all gone (disk s) = Some fs1 ->
    ((* 455-457: an artifact is missing *) (exists q rest, still_art s = gone ++ q :: rest /\ fs1 q = None) \/
     (* 459-466: a folder cannot be listed *) (gone = still_art s /\ (e_dirty_out e <> [] \/ e_dirty_art e <> [])) \/
     (* 468-593: the new graphs *) (gone = still_art s /\ exists inputs x, NoDup inputs /\ (forall f, In f inputs <-> (In f (dkeys (results s)) \/ In f (dkeys (p_D p))) /\ ~ In f deleted) /\
       new_graphs (p_D p) (p_O p) (p_P p) changed1 (sc_added t) deleted (results s) (sc_new t) (stat fs1) inputs = Raise x)) ->
    gives_up dev p fs1 mode1.

(** build.py:68-187: a build that raises an exception, and what it leaves *)
Inductive raises (dev : bool) (d : stored) : stored -> Prop :=
| raises_config : d_config d = Wrong -> raises dev d d
| raises_graphs : d_config d = Configured -> read_project d = None -> raises dev d d
| raises_later p s mode : d_config d = Configured -> read_project d = Some p -> gives_up dev p s mode -> raises dev d (mkStored (d_config d) s mode (d_D d) (d_O d) (d_P d)).

(** dev.py:102 [shutil.rmtree] of the out folder. Simplification: an out folder that is a symbolic
    link, which [rmtree] refuses, and files that cannot be removed are not modelled. *)
Definition below_out (q : str) : bool := starts_with (lit "out/") q.
Definition without_out (d : stored) : stored := mkStored (d_config d) (fun q => if below_out q then None else d_fs d q) None None None None.
(** dev.py:96: there is nothing in the out folder, which then may or may not exist *)
Definition out_empty (d : stored) : Prop := (forall q, below_out q = true -> d_fs d q = None) /\ d_mode d = None /\ d_D d = None /\ d_O d = None /\ d_P d = None.

(** The end of the first stage: the server is started, the exception of a build is raised, or the
    process exits, having left the folder like that. *)
Inductive outcome := Serves (d : stored) | Raises (d : stored) | Quits (d : stored).
Definition left_by (o : outcome) : stored := match o with Serves d => d | Raises d => d | Quits d => d end.
(** dev.py:84-103 (93-94: in the except clause, [SystemExit] is no [Exception]) *)
Inductive dev_start (d : stored) : outcome -> Prop :=
| dev_quits : d_config d = Exits -> dev_start d (Quits d)
| dev_first d1 : completes true d d1 -> dev_start d (Serves d1)
| dev_no_out d1 : raises true d d1 -> out_empty d1 -> dev_start d (Raises d1)
| dev_retry d1 d2 : raises true d d1 -> completes true (without_out d1) d2 -> dev_start d (Serves d2)
| dev_gives_up d1 d2 : raises true d d1 -> raises true (without_out d1) d2 -> dev_start d (Raises d2).
End Commands.
