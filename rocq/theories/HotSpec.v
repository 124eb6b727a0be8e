(** Specification vocabulary for the hot rebuild properties. *)
From Verif Require Import Base Graph GraphSpec Hot.
From Coq Require Import String ZArith Bool List Relations.
Import ListNotations.
Open Scope list_scope.

(** [y] uses [x]: [y] depends on [x], or [y] generated the placeholder [x] *)
Definition used_by (D P : graph) (x y : str) : Prop := depends D y x \/ depends P y x.

(** [f] must be rebuilt: it was scanned (changed or added) or deleted, or uses
    such a file through any number of intermediate files *)
Definition affected (D P : graph) (scanned deleted : list str) (f : str) : Prop :=
  exists s, (In s scanned \/ In s deleted) /\ clos_refl_trans str (used_by D P) s f.

Definition is_artifact (p : str) : Prop := exists r, p = lit "artifacts" ++ r.

(** ** the scheduling loop *)

(** [c] must be built before [f]: the scan of [f] says so or, when [f] was not
    scanned, the old dependency graph; and a placeholder comes after the file
    that generates it. *)
Definition generator_of (e : env) (f c : str) : Prop :=
  match dget f (e_scans e), dget f (e_new_placeholders e) with
  | Some _, Some g => c = g
  | _, _ => depends (e_P e) c f
  end.
Definition needs (e : env) (f c : str) : Prop :=
  (exists sc, dget f (e_scans e) = Some sc /\ In c (s_deps sc)) \/
  (dget f (e_scans e) = None /\ depends (e_D e) f c) \/ generator_of e f c.

(** [f] is expected to create [o] *)
Definition expects (e : env) (f o : str) : Prop :=
  (exists sc, dget f (e_scans e) = Some sc /\ In o (s_produces sc)) \/
  (dget f (e_scans e) = None /\ depends (e_O e) f o).

(** the files of this rebuild wait for each other in a circle *)
Definition circular (e : env) : Prop :=
  exists f, In f (e_orig e) /\ clos_trans str (fun a b => In b (e_orig e) /\ needs e a b) f f.

Definition dirtied (e : env) (o : str) : Prop := In o (e_dirty_out e) \/ In o (e_dirty_art e).

(** builds run so far: names, oldest first *)
Definition built (s : sched) : list str := map (fun t => fst (fst t)) (log s).

(** every dirtied file a build reported was expected of it *)
Definition no_surprise (e : env) (s : sched) : Prop := forall f d r o,
  In (f, d, r) (log s) -> In o (b_outputs r) -> dirtied e o -> expects e f o.
(** every dirtied file expected of a build was reported by it *)
Definition no_shortfall (e : env) (s : sched) : Prop := forall f d r o,
  In (f, d, r) (log s) -> expects e f o -> dirtied e o -> In o (b_outputs r).
(** no build raised, none reported an output twice *)
Definition no_failure (s : sched) : Prop :=
  (forall f, dget f (executed s) <> Some None) /\ forall f d r, In (f, d, r) (log s) -> NoDup (b_outputs r).
(** every file of the out folder a build read is the output of a scanned file
    (recorded in [m]) or of a file the reader depended on before *)
Definition sources_known (e : env) (m : dict str) (s : sched) : Prop := forall f d r c,
  In (f, d, r) (log s) -> In c (b_children r) -> is_out c = true ->
  In c (dkeys m) \/
  (dget f (e_scans e) = None /\ exists x, clos_refl_trans str (depends (e_D e)) f x /\ depends (e_O e) x c).

(** what every stored project state satisfies: graphs well formed, every input
    is a node of the output graph, placeholders are inputs *)
Definition project_graphs (D O P : graph) : Prop :=
  well_formed D /\ well_formed O /\ well_formed P /\
  (forall k, In k (dkeys D) -> In k (dkeys O)) /\ (forall k, In k (dkeys P) -> In k (dkeys D)).
