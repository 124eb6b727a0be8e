(** Vocabulary for the properties of a completed rebuild (C13-C15, C52). *)
From Verif Require Import Base Graph GraphSpec Hot HotSpec.
From Coq Require Import String ZArith Bool List Relations.
Import ListNotations.
Open Scope list_scope.

Definition build_log := list (str * fs * build_result).

(** some build reported [p] as one of its outputs / wrote [p] *)
Definition reported_by (l : build_log) (p g : str) : Prop := exists d r, In (g, d, r) l /\ In p (b_outputs r).
Definition written (l : build_log) (p : str) : Prop := exists g d r, In (g, d, r) l /\ In p (map fst (b_produced r)).
(** [p] is a recorded output of a file which the rebuild affects *)
Definition dirtied_output (D O P : graph) (scanned deleted : list str) (p : str) : Prop :=
  exists f, affected D P scanned deleted f /\ depends O f p.

(** ** What is expected of builders *)
(** a build depends only on the file, the children it reports and the outputs
    it reports *)
Definition reads_declared (build : str -> fs -> option build_result) : Prop := forall f s r s2,
  build f s = Some r -> (forall p, p = f \/ In p (b_children r) \/ In p (b_outputs r) -> s2 p = s p) -> build f s2 = Some r.
(** building again right after a build changes nothing *)
Definition idempotent (build : str -> fs -> option build_result) : Prop := forall f s r,
  build f s = Some r -> exists r2, build f (apply_build r s) = Some r2 /\ b_children r2 = b_children r /\
  (forall o, In o (b_outputs r2) <-> In o (b_outputs r)) /\
  (forall o c, In (o, c) (b_produced r2) -> apply_build r s o = Some c).
(** builders report only files of the out folder, and never the sources *)
Definition writes_out (build : str -> fs -> option build_result) : Prop := forall f s r o,
  build f s = Some r -> In o (b_outputs r) -> is_out o = true.
(** a reused file exists *)
Definition reuses_existing (build : str -> fs -> option build_result) : Prop := forall f s r o,
  build f s = Some r -> In o (b_reused r) -> s o <> None.

(** The project is up to date: building any input again would report what is
    recorded and would not change any file. *)
Definition up_to_date (build : str -> fs -> option build_result) (D O : graph) (s : fs) : Prop :=
  (forall f o, depends O f o -> In f (dkeys D)) /\
  forall f, In f (dkeys D) -> exists r, build f s = Some r /\
    (forall o, depends O f o <-> In o (b_outputs r)) /\
    (forall o c, In (o, c) (b_produced r) -> s o = Some c) /\
    (forall c, In c (b_children r) -> is_out c = false -> depends D f c) /\
    (forall c, In c (b_children r) -> is_out c = true -> exists x, (x = f \/ depends D f x) /\ depends O x c).

(** ** What is expected of the builds of one rebuild *)
(** builds reporting the same file agree on its contents *)
Definition agreeing (l : build_log) : Prop := forall f d r g d2 r2 p,
  In (f, d, r) l -> In (g, d2, r2) l -> In p (b_outputs r) -> In p (b_outputs r2) -> apply_build r d p = apply_build r2 d2 p.
(** a generated file which this rebuild touches is read only after a build that
    reports it *)
Definition read_after (e : env) (dirt : str -> Prop) (l : build_log) : Prop := forall f d r c,
  In (f, d, r) l -> In c (b_children r) -> is_out c = true -> dirt c \/ written l c ->
  In c (b_outputs r) \/ exists g, needs e f g /\ reported_by l c g.
(** every generated file a build read is a recorded output of the file itself
    or of one of its recorded dependencies *)
Definition sources_recorded (l : build_log) (D O : graph) : Prop := forall f d r c,
  In (f, d, r) l -> In c (b_children r) -> is_out c = true -> exists x, (x = f \/ depends D f x) /\ depends O x c.
(** an output of a file that is not affected is either left alone or
    regenerated with the contents it had in the old state *)
Definition shared_preserved (D O P : graph) (scanned deleted : list str) (fs_old : fs) (l : build_log) : Prop := forall f o,
  depends O f o -> ~ affected D P scanned deleted f ->
  (dirtied_output D O P scanned deleted o -> exists g, reported_by l o g) /\
  (forall g d r, In (g, d, r) l -> In o (b_outputs r) -> apply_build r d o = fs_old o).

(** what a build reports and leaves in its outputs is determined by the file
    and the children it reads (its own outputs do not count as read) *)
Definition deterministic (build : str -> fs -> option build_result) : Prop := forall f s1 s2 r1 r2,
  build f s1 = Some r1 -> build f s2 = Some r2 -> s1 f = s2 f ->
  (forall c, In c (b_children r1) -> In c (b_outputs r1) \/ s1 c = s2 c) ->
  (forall o, In o (b_outputs r1) <-> In o (b_outputs r2)) /\
  forall o, In o (b_outputs r1) -> apply_build r1 s1 o = apply_build r2 s2 o.

(** inputs that were not scanned or deleted, and outputs of files that are not
    affected, are as in the old state *)
Definition only_changed (D O P : graph) (scanned deleted : list str) (fs_old fs0 : fs) : Prop :=
  (forall p, In p (dkeys D) -> ~ In p scanned -> ~ In p deleted -> fs0 p = fs_old p) /\
  (forall f o, depends O f o -> ~ affected D P scanned deleted f -> ~ dirtied_output D O P scanned deleted o -> fs0 o = fs_old o).
(** The builds of a rebuild behave as their scans and the recorded graphs say:
    sources are outside the out folder and predicted outputs inside, and the
    conditions above. *)
Definition honest_builds (D O P : graph) (scans : dict scan_result) (deleted : list str) (fs_old : fs) (e : env) (l : build_log) (D1 O1 : graph) : Prop :=
  (forall f, In f (dkeys D) \/ affected D P (dkeys scans) deleted f -> is_out f = false) /\
  (forall g sc o, In (g, sc) scans -> In o (s_produces sc) -> is_out o = true) /\
  agreeing l /\ read_after e (dirtied_output D O P (dkeys scans) deleted) l /\ sources_recorded l D1 O1 /\
  shared_preserved D O P (dkeys scans) deleted fs_old l.
Definition honest_rebuild (D O P : graph) (scans : dict scan_result) (deleted : list str) (fs_old fs0 : fs) (e : env) (l : build_log) (D1 O1 : graph) : Prop :=
  only_changed D O P (dkeys scans) deleted fs_old fs0 /\ honest_builds D O P scans deleted fs_old e l D1 O1.

(** [x] produces [c]: as its scan predicted, or as the previous build recorded *)
Definition known_producer (O : graph) (scans : dict scan_result) (x c : str) : Prop :=
  (exists sc, In (x, sc) scans /\ In c (s_produces sc)) \/ depends O x c.
(** [cs] is recorded as the dependencies of [f] when its build reported [raw]:
    sources as they are, generated files replaced by a file producing them,
    and nothing else *)
Definition recorded (prod : str -> str -> Prop) (f : str) (raw cs : list str) : Prop :=
  (forall c, In c raw -> is_out c = false -> In c cs) /\
  (forall c, In c raw -> is_out c = true -> exists x, prod x c /\ (x = f \/ In x cs)) /\
  (forall x, In x cs -> (In x raw /\ is_out x = false) \/ exists c, In c raw /\ is_out c = true /\ prod x c).
