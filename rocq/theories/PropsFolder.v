(** Property C73: a project through builds, starts of the development server and edits, with the graphs stored in
    the out folder in between. *)
From Coq Require Import String ZArith NArith Bool List.
From Verif Require Import Base Graph GraphSpec PyStr PyPath PyNorm PathSpec Json JsonProofs GraphJson Octal Css NestSpec Html HtmlSpec Js Builder JsYield JsManip JsManipSpec Handlers Hot HotSpec HotGraphs HotResultSpec HotWantSpec Cold ColdSpec ColdExamples
  Project ProjectSpec ProjectExamples ProjectSite ProjectSiteProofs ProjectSiteExamples ProjectPageExamples ProjectOrderSpec DevStart DevStartSpec DevStartProofs DevStartSite DevStartExamples FolderSpec FolderProofs FolderExamples PropsDevStart.
Import ListNotations.
Open Scope list_scope.

Section Folder.
Context (float_parse : str -> option Z) (float_repr : Z -> str).
Context (Hnum : forall x, is_num (float_repr x)) (Hinv : forall x, float_parse (float_repr x) = Some x).
Context (sha : str -> str) (c : constants) (K : setting) (stat : fs -> str -> option fsig).
Context (Hstat : stat_ok stat) (Hdet : stat_detects stat) (Hconst : in_src (c_relpath c) = true) (Hcwd : starts_with (lit "/") (k_cwd K) = true) (Hcss : exists r, k_css K = lit "src/public/" ++ r /\ starts_with (lit "/") r = false).
Notation builds := (builds sha c K stat).
Notation completes := (completes float_parse float_repr (fun dev => file_build sha c dev K) (scan_no_placeholders c K) stat (c_relpath c)).
Notation raises := (raises float_parse (fun dev => file_build sha c dev K) (scan_no_placeholders c K) stat (c_relpath c)).
Notation dev_start := (dev_start float_parse float_repr (fun dev => file_build sha c dev K) (scan_no_placeholders c K) stat (c_relpath c)).
Notation folder := (folder float_parse float_repr sha c K stat).
Notation just_completed := (just_completed float_parse float_repr sha c K stat).
Notation held_all := (folder_held float_parse float_repr Hnum Hinv sha c K stat Hstat Hdet Hconst Hcwd Hcss).
Notation done_all := (completed_done float_parse float_repr Hnum Hinv sha c K stat Hstat Hdet Hconst Hcwd Hcss).

(** The stored graphs can always be loaded, and the project they make is one of those of C68 to C71. *)
Theorem C73_read : forall dev last d, folder dev last d -> exists p, read_project float_parse d = Some p /\ p_fs p = d_fs d /\ site sha c K stat dev last p.
Proof. intros dev last d H. destruct (held_all _ _ _ H) as (p & R & S & _). exists p. split; [exact R|]. split; [exact (proj1 (read_fs _ _ _ R))|exact S]. Qed.
(** The site that a command leaves depends on the sources and on the mode of that command alone. *)
Theorem C73_clean : forall dev d1 d2, just_completed dev d1 -> just_completed dev d2 -> (forall f, in_src f = true -> d_fs d1 f = d_fs d2 f) -> forall r, d_fs d1 (www r) = d_fs d2 (www r).
Proof. intros dev d1 d2 H1 H2. exact (done_same float_parse sha c K stat Hstat Hdet Hconst Hcwd Hcss dev d1 d2 (done_all _ _ H1) (done_all _ _ H2)). Qed.
(** A build leaves all files as they are that are not in the out folder, whether it completes or raises an exception; so
    does a start of the development server. *)
Theorem C73_kept : forall dev last d q, folder dev last d -> ~ in_out q ->
  (forall dev1 d1, completes dev1 d d1 -> d_fs d1 q = d_fs d q) /\ (forall dev1 d1, raises dev1 d d1 -> d_fs d1 q = d_fs d q) /\ forall o, dev_start d o -> d_fs (left_by o) q = d_fs d q.
Proof.
  intros dev last d q H Hq. apply not_below in Hq. destruct (held_all _ _ _ H) as (p & R & S & _). pose proof (site_sane float_parse sha c K stat Hstat Hdet Hconst Hcwd Hcss _ _ _ _ R S) as X. split; [|split].
  - intros dev1 d1 Y. exact (proj1 (completed_kept float_parse float_repr sha c K stat dev1 d d1 X Y) q Hq).
  - intros dev1 d1 Y. exact (proj1 (raised_kept float_parse sha c K stat dev1 d d1 X Y) q Hq).
  - intros o Y. exact (start_kept float_parse float_repr sha c K stat d o X Y q Hq).
Qed.
(** A completed build leaves the same site as one without the out folder. *)
Theorem C73_fresh : forall dev0 last d dev d1 s r p1, folder dev0 last d -> named d -> completes dev d d1 -> emptied d s -> builds dev (unbuilt s) r p1 -> forall q, d_fs d1 (www q) = p_fs p1 (www q).
Proof.
  intros dev0 last d dev d1 s r p1 H Hn HC He HB. assert (J : just_completed dev d1) by (exists dev0, last, d; auto). apply (first_same float_parse float_repr Hnum Hinv sha c K stat Hstat Hdet Hconst Hcwd Hcss dev d d1 s r p1 J Hn He HB).
  intros f If. apply (C73_kept _ _ _ f H) in HC; [exact HC|]. apply not_below, src_not_below, If.
Qed.
(** A second build in the same mode has nothing to do: it cannot raise an exception, and leaves every file and the graphs as they are. *)
Theorem C73_twice : forall dev d, just_completed dev d -> d_config d = Configured -> (forall d2, completes dev d d2 <-> d2 = d) /\ forall d2, ~ raises dev d d2.
Proof.
  intros dev d H Hc. destruct (done_twice float_parse float_repr sha c K stat Hstat Hdet Hconst Hcwd Hcss dev d (done_all _ _ H) Hc) as (A & B & C). split; [|exact C]. intros d2. split; [apply B|intros ->; exact A].
Qed.
(** Nor has the development server, if it is stopped and started again: it never removes the out folder. *)
Theorem C73_restart : forall d, just_completed true d -> d_config d = Configured -> forall o, dev_start d o <-> o = Serves d.
Proof. intros d H Hc o. exact (restarted float_parse float_repr sha c K stat Hstat Hdet Hconst Hcwd Hcss d o (done_all _ _ H) Hc). Qed.
(** If the sources can be built from scratch, and no script has type hints and no stylesheet imports, the
    development server is started whatever was built and edited before, and serves the site of a first build. *)
Theorem C73_serves : forall dev last d o s r p1, folder dev last d -> d_config d = Configured -> named d -> (forall f, in_src f = true -> d_fs d f <> None -> simple c K (d_fs d) f) ->
  emptied d s -> builds true (unbuilt s) r p1 -> dev_start d o -> exists d2, o = Serves d2 /\ forall q, d_fs d2 (www q) = p_fs p1 (www q).
Proof.
  intros dev last d o s r p1 H Hc Hn Hi He HB HS. destruct (held_all _ _ _ H) as (p & R & S & _). pose proof (site_sane float_parse sha c K stat Hstat Hdet Hconst Hcwd Hcss _ _ _ _ R S) as X.
  destruct (emptied_builds sha c K stat Hstat true d s r p1 He HB) as (r2 & p2 & B & _).
  destruct (served float_parse float_repr sha c K stat Hstat Hdet Hconst Hcwd Hcss d o r2 p2 X Hc (fun f I Y => conj (proj1 (Hn f I Y)) (Hi f I Y)) B HS) as (d2 & -> & _). exists d2. split; [reflexivity|].
  assert (J : just_completed true d2) by (exists dev, last, d; auto). apply (first_same float_parse float_repr Hnum Hinv sha c K stat Hstat Hdet Hconst Hcwd Hcss true d d2 s r p1 J Hn He HB).
  intros f If. apply (C73_kept _ _ _ f H) in HS; [exact HS|]. apply not_below, src_not_below, If.
Qed.
End Folder.
Print Assumptions C73_read.
Print Assumptions C73_clean.
Print Assumptions C73_kept.
Print Assumptions C73_fresh.
Print Assumptions C73_twice.
Print Assumptions C73_restart.
Print Assumptions C73_serves.

(** The project of C72 (see C72_premises) is built, then the partial and a stylesheet are edited; that the
    next build may raise an exception, and that its sources can be built, is C72_linked. *)
Example C73_history : fd_just true fd_built /\ d_config fd_built = Configured /\ fd_folder true (d_fs fd_built) ds_linked /\ named ds_linked /\ d_fs ds_linked pg_nav <> d_fs fd_built pg_nav.
Proof. split; [exact fd_built_just|]. split; [reflexivity|]. split; [exact fd_linked_folder|]. split; [exact fd_linked_named|]. exact fd_nav_edited. Qed.
(** the server is then started, with the site of a first build *)
Example C73_served : exists d2, ds_start ds_linked (Serves d2) /\ fd_just true d2 /\ forall q, d_fs d2 (www q) = p_fs (snd ds_fresh) (www q).
Proof.
  destruct C72_linked_serves as (d1 & d2 & _ & H). exists d2. split; [exact H|]. split; [exists true, (d_fs fd_built), ds_linked; split; [exact fd_linked_folder|split; [exact fd_linked_named|right; split; [reflexivity|exact H]]]|].
  destruct C72_premises as (A1 & A2 & A3 & A4 & A5 & A6 & A7). destruct C72_linked as (_ & _ & B1 & B2 & (s & r & p1 & B3 & B4 & B5)).
  destruct (C73_serves _ _ A6 A7 _ _ _ _ A1 A2 A3 A4 A5 _ _ _ _ s r p1 fd_linked_folder B1 fd_linked_named (fun f I X => proj2 (B2 f I X)) B3 B4 H) as (d3 & E & F). injection E as <-. intros q. rewrite F. apply B5.
Qed.
