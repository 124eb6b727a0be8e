(** Properties C09 - C12: what is rebuilt and in which order. *)
From Verif Require Import Base Graph GraphSpec Hot HotSpec HotDrive HotMain HotExamples.
From Coq Require Import String ZArith Bool List Relations Permutation.
Import ListNotations.
Open Scope list_scope.

(** A project used as concrete case below: page.html uses part.html, which uses
    logo.png; style.css stands alone; three of them have outputs, one of which
    is an artifact. *)
Definition ex_D : graph := history
  [OpAdd (lit "logo.png") 1 2 3 []; OpAdd (lit "part.html") 1 2 3 [lit "logo.png"]; OpAdd (lit "page.html") 1 2 3 [lit "part.html"];
   OpAdd (lit "style.css") 1 2 3 []].
Definition ex_O : graph := history
  [OpAdd (lit "out/page.html") 1 1 1 []; OpAdd (lit "artifacts/logo") 1 1 1 []; OpAdd (lit "out/style.css") 1 1 1 [];
   OpAdd (lit "logo.png") 1 2 3 [lit "artifacts/logo"]; OpAdd (lit "part.html") 1 2 3 [];
   OpAdd (lit "page.html") 1 2 3 [lit "out/page.html"]; OpAdd (lit "style.css") 1 2 3 [lit "out/style.css"]].
(** the builders: every file copies itself to its expected output *)
Definition ex_build (f : str) (s : fs) : option build_result :=
  match s f with
  | None => None
  | Some c => if str_eqb f (lit "logo.png") then Some (mkBuild [] [(lit "artifacts/logo", c)] [])
              else if str_eqb f (lit "page.html") then Some (mkBuild [lit "part.html"] [(lit "out/page.html", c)] [])
              else if str_eqb f (lit "part.html") then Some (mkBuild [lit "artifacts/logo"] [] [])
              else Some (mkBuild [] [(lit "out/style.css", c)] [])
  end.
Definition ex_fs : fs := fun p => Some p.
Definition ex_scans : dict scan_result := [(lit "logo.png", mkScan [] [lit "artifacts/logo"])].
Definition ex_prepared := prepare ex_D ex_O empty_graph ex_scans [] [].
Definition ex_run (order : list str) (fuel : nat) : option state :=
  match ex_prepared with
  | Ret (e, m) => Some (drive ex_build e 1 fuel (init_sched e order m ex_fs))
  | Raise _ => None
  end.

(** C09 *)
Theorem C09_exactly_the_affected_files : forall D O P scanned deleted, well_formed D -> well_formed P ->
  exists files outs arts, dirty D O P scanned deleted = Some (files, outs, arts) /\
  NoDup files /\ NoDup outs /\ NoDup arts /\
  (forall f, In f files <-> affected D P scanned deleted f) /\
  (forall o, In o outs <-> ~ is_artifact o /\ exists f, affected D P scanned deleted f /\ depends O f o) /\
  (forall o, In o arts <-> is_artifact o /\ exists f, affected D P scanned deleted f /\ depends O f o).
Proof. exact dirty_well_formed. Qed.
Print Assumptions C09_exactly_the_affected_files.
Theorem C09_rebuilt_files : forall D O P scans new_placeholders deleted e m, project_graphs D O P ->
  prepare D O P scans new_placeholders deleted = Ret (e, m) ->
  forall f, In f (e_orig e) <-> affected D P (dkeys scans) deleted f /\ ~ In f deleted.
Proof. exact rebuilt_files. Qed.
Print Assumptions C09_rebuilt_files.
Example C09_case : match ex_prepared with
  | Ret (e, m) => e_orig e = [lit "logo.png"; lit "part.html"; lit "page.html"] /\ e_dirty_out e = [lit "out/page.html"]
                  /\ e_dirty_art e = [lit "artifacts/logo"] /\ m = [(lit "artifacts/logo", lit "logo.png")]
  | Raise _ => False
  end.
Proof. vm_compute. auto. Qed.

(** C10 *)
Theorem C10_dependencies_first : forall build D O P scans new_placeholders deleted e m,
  project_graphs D O P -> prepare D O P scans new_placeholders deleted = Ret (e, m) ->
  forall order fs0, NoDup order -> (forall f, In f order <-> In f (e_orig e)) ->
  forall s, steps build e (init_sched e order m fs0) s ->
  (forall f c, In f (pending s) -> In c (e_orig e) -> needs e f c -> In c (dkeys (results s))) /\
  (forall l1 f d r l2, log s = l1 ++ (f, d, r) :: l2 ->
     build f d = Some r /\ forall c, In c (e_orig e) -> needs e f c -> In c (map (fun t => fst (fst t)) l1)) /\
  (forall f, In f (dkeys (results s)) -> In f (built s)) /\
  NoDup (built s) /\ NoDup (todo s ++ pending s ++ dkeys (results s)).
Proof. exact dependencies_first. Qed.
Print Assumptions C10_dependencies_first.
Theorem C10_everything_built_once : forall build D O P scans new_placeholders deleted e m,
  project_graphs D O P -> prepare D O P scans new_placeholders deleted = Ret (e, m) ->
  forall order fs0, NoDup order -> (forall f, In f order <-> In f (e_orig e)) ->
  forall s, steps build e (init_sched e order m fs0) s -> finished s ->
  Permutation (built s) order /\ Permutation (dkeys (results s)) order.
Proof. exact finished_all. Qed.
Print Assumptions C10_everything_built_once.
Example C10_graphs : project_graphs ex_D ex_O empty_graph.
Proof. apply (project_graphs_intro _ _ []); vm_compute; reflexivity. Qed.
(** the set is iterated in an unhelpful order *)
Example C10_case : match ex_run [lit "page.html"; lit "part.html"; lit "logo.png"] 20 with
  | Some (Running s) => (todo s, pending s, built s) = ([], [], [lit "logo.png"; lit "part.html"; lit "page.html"])
  | _ => False
  end.
Proof. vm_compute. reflexivity. Qed.

(** C11: two pending builds expecting the same dirtied file: never for an
    artifact, and for an output only after a third build has already
    regenerated it. *)
Theorem C11_no_concurrent_producers : forall build D O P scans new_placeholders deleted e m,
  project_graphs D O P -> prepare D O P scans new_placeholders deleted = Ret (e, m) ->
  forall order fs0, NoDup order -> (forall f, In f order <-> In f (e_orig e)) ->
  forall s, steps build e (init_sched e order m fs0) s -> no_surprise e s ->
  forall f g o, In f (pending s) -> In g (pending s) -> f <> g -> expects e f o -> expects e g o -> dirtied e o ->
  ~ is_artifact o /\ exists h r, h <> f /\ h <> g /\ dget h (results s) = Some r /\ In o (b_outputs r) /\ expects e h o.
Proof. exact exclusive. Qed.
Print Assumptions C11_no_concurrent_producers.
Theorem C11_no_concurrent_producers_refuted : exists build D O scans e m order fs0 s f g o,
  project_graphs D O empty_graph /\ prepare D O empty_graph scans [] [] = Ret (e, m) /\
  NoDup order /\ (forall f, In f order <-> In f (e_orig e)) /\
  steps build e (init_sched e order m fs0) s /\ no_surprise e s /\
  In f (pending s) /\ In g (pending s) /\ f <> g /\ expects e f o /\ expects e g o /\ dirtied e o.
Proof. exact three_producers. Qed.
Print Assumptions C11_no_concurrent_producers_refuted.

(** C12 *)
Theorem C12_terminates : forall build e order m fs0, NoDup order -> (forall f, In f order <-> In f (e_orig e)) ->
  forall (run : nat -> sched) n, run 0 = init_sched e order m fs0 ->
  (forall i, i < n -> step build e (run i) (Running (run (S i)))) -> n <= 3 * length order + 1.
Proof. exact terminates_any. Qed.
Print Assumptions C12_terminates.
Theorem C12_never_stuck : forall build D O P scans new_placeholders deleted e m,
  project_graphs D O P -> prepare D O P scans new_placeholders deleted = Ret (e, m) ->
  forall order fs0, NoDup order -> (forall f, In f order <-> In f (e_orig e)) ->
  forall s, steps build e (init_sched e order m fs0) s -> finished s \/ exists st, step build e s st.
Proof. exact never_stuck. Qed.
Print Assumptions C12_never_stuck.
Theorem C12_success_means_no_circle : forall build D O P scans new_placeholders deleted e m,
  project_graphs D O P -> prepare D O P scans new_placeholders deleted = Ret (e, m) ->
  forall order fs0, NoDup order -> (forall f, In f order <-> In f (e_orig e)) ->
  forall s, steps build e (init_sched e order m fs0) s -> finished s -> ~ circular e.
Proof. exact finished_not_circular. Qed.
Print Assumptions C12_success_means_no_circle.
Theorem C12_failure_means_circle : forall build D O P scans new_placeholders deleted e m,
  project_graphs D O P -> prepare D O P scans new_placeholders deleted = Ret (e, m) ->
  forall order fs0, NoDup order -> (forall f, In f order <-> In f (e_orig e)) ->
  forall s x s', steps build e (init_sched e order m fs0) s ->
  no_failure s -> no_surprise e s -> no_shortfall e s -> sources_known e m s ->
  step build e s (Stopped x s') -> x = CyclicDependencyException /\ circular e.
Proof. exact stop_is_circular. Qed.
Print Assumptions C12_failure_means_circle.
(** without [no_shortfall] a circle is reported where there is none *)
Theorem C12_failure_means_circle_refuted : exists build D O scans e m order fs0 s s',
  project_graphs D O empty_graph /\ prepare D O empty_graph scans [] [] = Ret (e, m) /\
  NoDup order /\ (forall f, In f order <-> In f (e_orig e)) /\
  steps build e (init_sched e order m fs0) s /\ no_failure s /\ no_surprise e s /\ sources_known e m s /\
  step build e s (Stopped CyclicDependencyException s') /\ ~ circular e.
Proof. exact false_alarm. Qed.
Print Assumptions C12_failure_means_circle_refuted.
(** a real circle: two scanned files depending on each other *)
Example C12_case : match prepare ex_D ex_O empty_graph
    [(lit "logo.png", mkScan [lit "style.css"] []); (lit "style.css", mkScan [lit "logo.png"] [])] [] [] with
  | Ret (e, m) => match drive ex_build e 1 20 (init_sched e (e_orig e) m ex_fs) with
                  | Stopped x s => x = CyclicDependencyException /\ pending s = []
                  | _ => False
                  end
  | Raise _ => False
  end.
Proof. vm_compute. auto. Qed.
