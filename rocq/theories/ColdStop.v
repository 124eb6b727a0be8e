(** A build command that fails while files are built. *)
From Verif Require Import Base Graph GraphSpec Hot HotGraphs Cold.
From Coq Require Import String ZArith NArith Bool List.
Import ListNotations.
Open Scope list_scope.

(** as [cold_hot] of Cold.v up to the scheduling loop, which stops with [x] *)
Inductive cold_stops (build : str -> fs -> option build_result) (scan : str -> fs -> option scan_full) (stat : fs -> str -> option fsig)
    (constants : str) (dev : bool) (p : project) (x : exn) : Prop :=
| stops files changed added deleted changed1 mode1 fuel t full e m order s s' :
    NoDup files -> (forall f, In f files <-> in_src f = true /\ p_fs p f <> None) ->
    classify (p_D p) (stat (p_fs p)) files (dkeys (p_D p)) [] [] = Ret (changed, added, deleted) ->
    mode_step constants dev (stat (p_fs p)) (p_fs p) (p_mode p) changed added = Ret (changed1, mode1) ->
    (changed1 <> [] \/ added <> [] \/ deleted <> []) ->
    scan_loop scan stat fuel (mkScanning (p_fs p) (dkeys changed1 ++ dkeys added) [] added) [] = Ret (t, full) ->
    prepare (p_D p) (p_O p) (p_P p) (scans_of full) (sc_new t) deleted = Ret (e, m) ->
    NoDup order -> (forall f, In f order <-> In f (e_orig e)) ->
    steps build e (init_sched e order m (sc_fs t)) s -> step build e s (Stopped x s') ->
    cold_stops build scan stat constants dev p x.
