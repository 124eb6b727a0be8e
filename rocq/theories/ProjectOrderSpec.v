(** Vocabulary for C71: rebuilds that differ in the order in which files are built. *)
From Verif Require Import Base Graph GraphSpec Css NestSpec Js JsManipSpec Handlers Hot HotSpec HotGraphs HotResultSpec Cold Project.
From Coq Require Import String ZArith Bool List Relations.
Import ListNotations.
Open Scope list_scope.

(** What the builds of a rebuild reported was known beforehand: of a scanned file, its scan had
    found what its build reported; of another file, what it was recorded to depend on afterwards
    was recorded before. *)
Definition foreseen (D : graph) (scans : dict scan_result) (l : build_log) (D1 : graph) : Prop := forall f d r, In (f, d, r) l ->
  (forall sc, In (f, sc) scans -> incl (b_children r) (s_deps sc)) /\
  (~ In f (dkeys scans) -> forall x, depends D1 f x -> depends D f x).

(** A build command that was started and has come to the state [s] of building files, with the
    sources listed in the order [files] and the files to build held in the order [order]; nothing is said about whether it ends, and
    how. As [cold_hot] of Cold.v up to some point of the scheduling loop. *)
Inductive building (build : str -> fs -> option build_result) (scan : str -> fs -> option scan_full) (stat : fs -> str -> option fsig)
    (constants : str) (dev : bool) (p : project) (files order : list str) : env -> sched -> Prop :=
| under_way changed added deleted changed1 mode1 fuel t full e m s :
    NoDup files -> (forall f, In f files <-> in_src f = true /\ p_fs p f <> None) ->
    classify (p_D p) (stat (p_fs p)) files (dkeys (p_D p)) [] [] = Ret (changed, added, deleted) ->
    mode_step constants dev (stat (p_fs p)) (p_fs p) (p_mode p) changed added = Ret (changed1, mode1) ->
    (changed1 <> [] \/ added <> [] \/ deleted <> []) ->
    scan_loop scan stat fuel (mkScanning (p_fs p) (dkeys changed1 ++ dkeys added) [] added) [] = Ret (t, full) ->
    prepare (p_D p) (p_O p) (p_P p) (scans_of full) (sc_new t) deleted = Ret (e, m) ->
    NoDup order -> (forall f, In f order <-> In f (e_orig e)) ->
    steps build e (init_sched e order m (sc_fs t)) s ->
    building build scan stat constants dev p files order e s.

(** A build command that has built all files and then fails: an artifact to remove is missing, or
    storing what was built in the three graphs raises. *)
Inductive fails_late (build : str -> fs -> option build_result) (scan : str -> fs -> option scan_full) (stat : fs -> str -> option fsig)
    (constants : str) (dev : bool) (p : project) : Prop :=
| too_late files changed added deleted changed1 mode1 fuel t full e m order s :
    NoDup files -> (forall f, In f files <-> in_src f = true /\ p_fs p f <> None) ->
    classify (p_D p) (stat (p_fs p)) files (dkeys (p_D p)) [] [] = Ret (changed, added, deleted) ->
    mode_step constants dev (stat (p_fs p)) (p_fs p) (p_mode p) changed added = Ret (changed1, mode1) ->
    (changed1 <> [] \/ added <> [] \/ deleted <> []) ->
    scan_loop scan stat fuel (mkScanning (p_fs p) (dkeys changed1 ++ dkeys added) [] added) [] = Ret (t, full) ->
    prepare (p_D p) (p_O p) (p_P p) (scans_of full) (sc_new t) deleted = Ret (e, m) ->
    NoDup order -> (forall f, In f order <-> In f (e_orig e)) ->
    steps build e (init_sched e order m (sc_fs t)) s -> finished s ->
    (unlink_all (still_art s) (disk s) = None \/
     exists fs1 inputs x, unlink_all (still_art s) (disk s) = Some fs1 /\ NoDup inputs /\ (forall f, In f inputs <-> (In f (dkeys (results s)) \/ In f (dkeys (p_D p))) /\ ~ In f deleted) /\
       new_graphs (p_D p) (p_O p) (p_P p) changed1 (sc_added t) deleted (results s) (sc_new t) (stat fs1) inputs = Raise x) ->
    fails_late build scan stat constants dev p.

(** A script without type hints, a stylesheet without imports, or any other file. *)
Definition simple (c : constants) (K : setting) (s : fs) (f : str) : Prop :=
  (build_with (c_relpath c) f = Script -> forall text ts, s f = Some text -> js_tokenize text = Ret ts -> forall v, In (JComment v) ts -> ~ hint_text v) /\
  (build_with (c_relpath c) f = Stylesheet -> forall text ts, s f = Some text -> tokenize (k_float_of K) (k_high_digit K) (k_int_high K) text = (ts, None) -> forall t, In t ts -> forall r, ~ import (k_css K) t r).
