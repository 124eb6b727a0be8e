(** Vocabulary for C67: builders that leave a file alone if it exists, and read generated files
    they do not report. *)
From Verif Require Import Base Graph GraphSpec Hot HotSpec HotResultSpec.
From Coq Require Import String ZArith Bool List Relations.
Import ListNotations.
Open Scope list_scope.

(** What the outputs of a file should be: the files looked at, and the outputs with contents. *)
Definition wants := str -> fs -> option (list str * list (str * str)).
(** it is determined by the files looked at *)
Definition reads_only (want : wants) : Prop := forall f s rs ws s2,
  want f s = Some (rs, ws) -> (forall p, In p rs -> s2 p = s p) -> want f s2 = Some (rs, ws).
(** outputs are distinct and in the out folder *)
Definition outputs_out (want : wants) : Prop := forall f s rs ws, want f s = Some (rs, ws) ->
  NoDup (map fst ws) /\ forall o c, In (o, c) ws -> is_out o = true.
(** two of the files [F] that have an output in common agree on it in all states, and so does a
    file with itself for an artifact *)
Definition names_agree (F : str -> Prop) (want want2 : wants) : Prop := forall f s rs ws f2 s2 rs2 ws2 o c c2,
  F f -> F f2 -> want f s = Some (rs, ws) -> want2 f2 s2 = Some (rs2, ws2) -> In (o, c) ws -> In (o, c2) ws2 -> f <> f2 \/ is_artifact o -> c = c2.
Definition names_fixed (F : str -> Prop) (want : wants) : Prop := names_agree F want want.
(** no output is there with other contents *)
Definition nothing_stale (ws : list (str * str)) (s : fs) : Prop := forall o c, In (o, c) ws -> s o = None \/ s o = Some c.
(** A builder follows [want]: building a file that exists, it reports these outputs; it reuses only what exists and, unless
    something stale is there, writes only what is wanted; sources it looks at are the file and
    reported children. *)
Definition follows (want : wants) (build : str -> fs -> option build_result) : Prop := forall f s r, build f s = Some r -> s f <> None ->
  exists rs ws, want f s = Some (rs, ws) /\ (forall o, In o (b_outputs r) <-> In o (map fst ws)) /\
    (forall o, In o (b_reused r) -> s o <> None \/ In o (map fst (b_produced r))) /\
    (nothing_stale ws s -> forall o c, In (o, c) (b_produced r) -> In (o, c) ws) /\
    (forall p, In p rs -> is_out p = false -> p = f \/ In p (b_children r)).

(** The folder is correct: each input has exactly the outputs it should have, as recorded, and
    what it looks at is recorded. *)
Definition correct (want : wants) (D O : graph) (s : fs) : Prop :=
  (forall f o, depends O f o -> In f (dkeys D)) /\
  forall f, In f (dkeys D) -> exists rs ws, want f s = Some (rs, ws) /\ (forall o, depends O f o <-> In o (map fst ws)) /\
    (forall o c, In (o, c) ws -> s o = Some c) /\
    forall p, In p rs -> (is_out p = false -> p = f \/ depends D f p) /\ (is_out p = true -> exists x, depends D f x /\ depends O x p).

(** The project before the rebuild: unscanned inputs are as they were, and so are recorded outputs, except
    those that the rebuild removes before it builds; what exists of the files that get built is recorded; a file to be built exists. *)
Definition as_recorded (D O P : graph) (scanned deleted : list str) (fs_old fs0 : fs) (l : build_log) : Prop :=
  (forall p, In p (dkeys D) -> ~ In p scanned -> ~ In p deleted -> fs0 p = fs_old p) /\
  (forall f o, depends O f o -> fs0 o = fs_old o \/ (~ is_artifact o /\ dirtied_output D O P scanned deleted o)) /\
  (forall p g, reported_by l p g -> fs0 p <> None -> exists f, depends O f p) /\
  (forall f, affected D P scanned deleted f -> ~ In f deleted -> fs0 f <> None).
(** a generated file which this rebuild touches is looked at only after a build that reports it *)
Definition looks_after (want : wants) (dirt : str -> Prop) (l : build_log) : Prop := forall l1 f d r l2 rs ws c,
  l = l1 ++ (f, d, r) :: l2 -> want f d = Some (rs, ws) -> In c rs -> is_out c = true -> dirt c \/ written l c -> exists g, reported_by l1 c g.
(** every generated file a build looks at is a recorded output of a recorded dependency *)
Definition looks_recorded (want : wants) (l : build_log) (D O : graph) : Prop := forall f d r rs ws c,
  In (f, d, r) l -> want f d = Some (rs, ws) -> In c rs -> is_out c = true -> exists x, depends D f x /\ depends O x c.
Definition orderly (want : wants) (D O P : graph) (scans : dict scan_result) (deleted : list str) (l : build_log) (D1 O1 : graph) : Prop :=
  (forall f, In f (dkeys D) \/ affected D P (dkeys scans) deleted f -> is_out f = false) /\
  (forall g sc o, In (g, sc) scans -> In o (s_produces sc) -> is_out o = true) /\
  looks_after want (dirtied_output D O P (dkeys scans) deleted) l /\ looks_recorded want l D1 O1 /\
  (forall f o, depends O f o -> ~ affected D P (dkeys scans) deleted f -> dirtied_output D O P (dkeys scans) deleted o -> exists g, reported_by l o g).
