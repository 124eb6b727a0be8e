(** runners/dev.py:193-317: one rebuild of the development server, from the files that its event
    handler (Dev.v) hands over to what it leaves on disk. *)
From Verif Require Import Base Graph GraphJson Hot HotGraphs Cold DevStart Dev.
From Coq Require Import String ZArith NArith Bool List.
Import ListNotations.
Open Scope list_scope.

(** a python set, iterated in some order *)
Definition iterates (order : list str) (l : list str) : Prop := NoDup order /\ forall x, In x order <-> In x l.
(** dev.py:250-258: [dict((relpath, get_file_signature(file)) for file in …)]; [None]: the exception of a file that
    does not exist. Simplification: the events name the files by their paths relative to the folder of the
    project, so [os.path.relpath] has nothing to do. *)
Fixpoint signatures (sig : str -> option fsig) (order : list str) (acc : dict fsig) : option (dict fsig) :=
  match order with
  | [] => Some acc
  | f :: r => match sig f with None => None | Some g => signatures sig r (dset f g acc) end
  end.

Section Rebuild.
Context (float_parse : str -> option Z) (float_repr : Z -> str).
Context (build : bool -> str -> fs -> option build_result) (scan : str -> fs -> option scan_full) (stat : fs -> str -> option fsig) (constants : str).

(** dev.py:217-260: the settings and the graphs are read again, and the files are examined *)
Definition handed_over (d : stored) (b : batch) (p : project) (changed added : dict fsig) (deleted : list str) : Prop :=
  d_config d = Configured /\ read_project float_parse d = Some p /\ iterates deleted (b_deleted b) /\
  exists order1 order2, iterates order1 (b_changed b) /\ iterates order2 (b_created b) /\
    signatures (stat (p_fs p)) order1 [] = Some changed /\ signatures (stat (p_fs p)) order2 [] = Some added.
(** dev.py:274-290 with hot_incremental_rebuild.py:89-608: a rebuild that completes *)
Inductive rebuilds (d : stored) (b : batch) : stored -> Prop :=
| rebuilds_run p changed added deleted changed1 mode1 fuel t full e l fs1 D1 O1 P1 :
    handed_over d b p changed added deleted ->
    mode_step constants true (stat (p_fs p)) (p_fs p) (p_mode p) changed added = Ret (changed1, mode1) ->
    (changed1 <> [] \/ added <> [] \/ deleted <> []) ->
    scan_loop scan stat fuel (mkScanning (p_fs p) (dkeys changed1 ++ dkeys added) [] added) [] = Ret (t, full) ->
    hot_rebuild (build true) stat (p_D p) (p_O p) (p_P p) (scans_of full) (sc_new t) changed1 (sc_added t) deleted (sc_fs t) e l fs1 D1 O1 P1 ->
    rebuilds d b (mkStored (d_config d) fs1 mode1 (Some (store float_repr D1)) (Some (store float_repr O1)) (Some (store float_repr P1))).
(** dev.py:291-313: a rebuild that raises an exception before it builds any file (a source cannot be
    scanned, or the dependencies of the sources cannot be resolved), and what it leaves: the mode file may have been
    written. Simplification as in DevStart.v: scans that write placeholders and then fail are not modelled. *)
Inductive fails_early (d : stored) (b : batch) : stored -> Prop :=
| fails_scan p changed added deleted changed1 mode1 x :
    handed_over d b p changed added deleted ->
    mode_step constants true (stat (p_fs p)) (p_fs p) (p_mode p) changed added = Ret (changed1, mode1) ->
    (changed1 <> [] \/ added <> [] \/ deleted <> []) ->
    scan_batch scan (dkeys changed1 ++ dkeys added) (p_fs p) [] = Raise x ->
    fails_early d b (mkStored (d_config d) (p_fs p) mode1 (d_D d) (d_O d) (d_P d))
| fails_prepare p changed added deleted changed1 mode1 fuel t full x :
    handed_over d b p changed added deleted ->
    mode_step constants true (stat (p_fs p)) (p_fs p) (p_mode p) changed added = Ret (changed1, mode1) ->
    (changed1 <> [] \/ added <> [] \/ deleted <> []) ->
    scan_loop scan stat fuel (mkScanning (p_fs p) (dkeys changed1 ++ dkeys added) [] added) [] = Ret (t, full) ->
    prepare (p_D p) (p_O p) (p_P p) (scans_of full) (sc_new t) deleted = Raise x -> x <> OutOfFuel ->
    fails_early d b (mkStored (d_config d) (sc_fs t) mode1 (d_D d) (d_O d) (d_P d)).
(** dev.py:291-313 again: a rebuild of which the scheduling loop stops (a file cannot be built, or the
    files cannot be put in order); the files that were submitted are built nevertheless (DevStart.v,
    [winds_down]) *)
Inductive fails_building (d : stored) (b : batch) : stored -> Prop :=
| fails_loop p changed added deleted changed1 mode1 fuel t full e m order s s1 s2 x :
    handed_over d b p changed added deleted ->
    mode_step constants true (stat (p_fs p)) (p_fs p) (p_mode p) changed added = Ret (changed1, mode1) ->
    (changed1 <> [] \/ added <> [] \/ deleted <> []) ->
    scan_loop scan stat fuel (mkScanning (p_fs p) (dkeys changed1 ++ dkeys added) [] added) [] = Ret (t, full) ->
    prepare (p_D p) (p_O p) (p_P p) (scans_of full) (sc_new t) deleted = Ret (e, m) ->
    NoDup order -> (forall f, In f order <-> In f (e_orig e)) ->
    steps (build true) e (init_sched e order m (sc_fs t)) s -> step (build true) e s (Stopped x s1) -> winds_down build true s1 s2 ->
    fails_building d b (mkStored (d_config d) (disk s2) mode1 (d_D d) (d_O d) (d_P d)).
(** dev.py:217-260 are not in the [try] statement: an exception there stops the server *)
Inductive crashes (d : stored) (b : batch) : Prop :=
| crashes_config : d_config d = Wrong -> crashes d b
| crashes_graphs : d_config d = Configured -> read_project float_parse d = None -> crashes d b
| crashes_file p order : d_config d = Configured -> read_project float_parse d = Some p ->
    iterates order (b_changed b) \/ iterates order (b_created b) -> signatures (stat (p_fs p)) order [] = None -> crashes d b.
End Rebuild.
