(** Property C72: the first build of the development server. *)
From Coq Require Import String ZArith NArith Bool List.
From Verif Require Import Base Graph GraphSpec PyStr PyPath PyNorm PathSpec Json JsonProofs GraphJson Octal Css NestSpec Html HtmlSpec Js Builder JsYield JsManip JsManipSpec Handlers Hot HotSpec HotGraphs HotResultSpec HotWantSpec Cold ColdSpec ColdExamples
  Project ProjectSpec ProjectExamples ProjectSite ProjectSiteProofs ProjectSiteExamples ProjectPageExamples ProjectOrderSpec DevStart DevStartSpec DevStartProofs DevStartSite DevStartExamples.
Import ListNotations.
Open Scope list_scope.

(** A build that raised an exception is tried again after the out folder was removed, with any
    handlers: a wrong vanillaplusjs.json always costs the out folder and never starts the server ... *)
Theorem C72_wrong_settings : forall float_parse float_repr build scan stat constants d o, d_config d = Wrong -> dev_start float_parse float_repr build scan stat constants d o ->
  exists d2, o = Raises d2 /\ emptied d (d_fs d2) /\ d_mode d2 = None /\ d_D d2 = None /\ d_O d2 = None /\ d_P d2 = None.
Proof.
  intros fp fr build scan stat k d o Hw H. assert (R : forall d1 d2, d_config d1 = Wrong -> raises fp build scan stat k true d1 d2 -> d2 = d1) by (intros d1 d2 E X; inversion X; subst; congruence).
  inversion H as [Q|d1 H1|d1 H1 H2|d1 d2 H1 H2|d1 d2 H1 H2]; subst; try congruence.
  - inversion H1; congruence.
  - exists d1. rewrite (R _ _ Hw H1) in *. split; [reflexivity|]. destruct H2 as (X & Y). split; [|exact Y]. intros q. split; [intros Z; apply X, below_in, Z|reflexivity].
  - rewrite (R _ _ Hw H1) in H2. inversion H2 as [p p1 X|p r p1 X]; cbn [without_out d_config] in X; congruence.
  - rewrite (R _ _ Hw H1) in H2. rewrite (R (without_out d) d2 Hw H2) in *. exists (without_out d). split; [reflexivity|]. split; [|repeat split; reflexivity]. intros q. cbn [without_out d_fs]. split; intros Z; [apply below_in in Z|apply not_below in Z]; rewrite Z; reflexivity.
Qed.
(** ... and a missing one leaves everything as it is. *)
Theorem C72_quits : forall float_parse float_repr build scan stat constants d o, d_config d = Exits -> dev_start float_parse float_repr build scan stat constants d o -> o = Quits d.
Proof.
  intros fp fr build scan stat k d o Hw H. inversion H as [Q|d1 H1|d1 H1 H2|d1 d2 H1 H2|d1 d2 H1 H2]; subst; [reflexivity|..]; inversion H1; congruence.
Qed.

Section Start.
Context (float_parse : str -> option Z) (float_repr : Z -> str).
Context (sha : str -> str) (c : constants) (K : setting) (stat : fs -> str -> option fsig).
Context (Hstat : stat_ok stat) (Hdet : stat_detects stat) (Hconst : in_src (c_relpath c) = true) (Hcwd : starts_with (lit "/") (k_cwd K) = true) (Hcss : exists r, k_css K = lit "src/public/" ++ r /\ starts_with (lit "/") r = false).
Notation builds := (builds sha c K stat).
Notation just_built := (just_built sha c K stat).
Notation completes := (completes float_parse float_repr (fun dev => file_build sha c dev K) (scan_no_placeholders c K) stat (c_relpath c)).
Notation raises := (raises float_parse (fun dev => file_build sha c dev K) (scan_no_placeholders c K) stat (c_relpath c)).
Notation dev_start := (dev_start float_parse float_repr (fun dev => file_build sha c dev K) (scan_no_placeholders c K) stat (c_relpath c)).
Notation records_out := (records_out float_parse).

(** However the first build and the second one go, nothing outside the out folder is changed. *)
Theorem C72_kept : forall d o, records_out d -> dev_start d o -> forall q, ~ in_out q -> d_fs (left_by o) q = d_fs d q.
Proof. intros d o H S q Hq. apply not_below in Hq. exact (start_kept float_parse float_repr sha c K stat d o (records_sane float_parse d H) S q Hq). Qed.
(** When the server is started the first build completed, or the site is that of a project which was
    just built in development mode from these sources. *)
Theorem C72_recovered : forall d d2, records_out d -> (forall f, in_src f = true -> d_fs d f <> None -> source_name f) -> dev_start d (Serves d2) ->
  completes true d d2 \/
  (exists p1, just_built true p1 /\ forall q, d_fs d2 q = p_fs p1 q) /\
  (forall p, just_built true p -> (forall f, in_src f = true -> p_fs p f = d_fs d f) -> forall r, d_fs d2 (www r) = p_fs p (www r)).
Proof.
  intros d d2 HS Hn H. pose proof (C72_kept d _ HS H) as HK. cbn [left_by] in HK. destruct (recovered float_parse float_repr sha c K stat d d2 (records_sane float_parse d HS) Hn H) as [X|(p1 & J & E)]; [left; exact X|right]. split; [eauto|].
  intros p Hp Hs r. rewrite E. apply (built_same sha c K stat Hstat Hdet Hconst Hcwd Hcss true p1 p J Hp). intros f If. rewrite <- E, (Hs f If). apply HK. apply not_below, src_not_below. exact If.
Qed.
(** If the sources can be built at all, and no script has type hints and no stylesheet imports, the
    server is started whatever the out folder holds. *)
Theorem C72_serves : forall d o s r p1, records_out d -> d_config d = Configured -> (forall f, in_src f = true -> d_fs d f <> None -> source_name f /\ simple c K (d_fs d) f) ->
  emptied d s -> builds true (unbuilt s) r p1 -> dev_start d o -> exists d2, o = Serves d2 /\ (completes true d d2 \/ forall q, d_fs d2 q = p_fs p1 q).
Proof.
  intros d o s r p1 H Hc Hn He HB HS. destruct (emptied_builds sha c K stat Hstat true d s r p1 He HB) as (r2 & p2 & B & E). destruct (served float_parse float_repr sha c K stat Hstat Hdet Hconst Hcwd Hcss d o r2 p2 (records_sane float_parse d H) Hc Hn B HS) as (d2 & X & [Y|Y]); exists d2; (split; [exact X|]); [left; exact Y|right]. intros q. rewrite Y. apply E.
Qed.
(** A first build that raised an exception is then followed by one that can complete. *)
Theorem C72_again : forall d d1 s r p1, records_out d -> d_config d = Configured -> emptied d s -> builds true (unbuilt s) r p1 -> raises true d d1 -> exists d2, dev_start d (Serves d2).
Proof.
  intros d d1 s r p1 H Hc He HB H1. destruct (emptied_builds sha c K stat Hstat true d s r p1 He HB) as (r2 & p2 & B & _). destruct (again float_parse float_repr sha c K stat Hstat d d1 r2 p2 (records_sane float_parse d H) Hc B H1) as (d2 & X). exists d2. eapply dev_retry; [exact H1|exact X].
Qed.
(** A build that was killed while it stored a graph: the server is started with the site of a first
    build ... *)
Theorem C72_torn : forall d s r p1, (forall x, is_num (float_repr x)) -> torn_graphs float_repr d -> d_config d = Configured -> (forall f, in_src f = true -> d_fs d f <> None -> source_name f /\ simple c K (d_fs d) f) ->
  emptied d s -> builds true (unbuilt s) r p1 -> (exists d2, dev_start d (Serves d2)) /\ forall o, dev_start d o -> exists d2, o = Serves d2 /\ forall q, d_fs d2 q = p_fs p1 q.
Proof.
  intros d s r p1 Hr HT Hc Hn He HB. destruct (emptied_builds sha c K stat Hstat true d s r p1 He HB) as (r2 & p2 & B & E). destruct (torn_served float_parse float_repr sha c K stat Hstat Hdet Hconst Hcwd Hcss d r2 p2 Hr HT Hc Hn B) as (X & Y). split; [exact X|]. intros o S. destruct (Y o S) as (d2 & Z & F). exists d2. split; [exact Z|]. intros q. rewrite F. apply E.
Qed.
(** ... and whether the sources can be built or not, nothing outside the out folder is changed. *)
Theorem C72_torn_kept : forall d o, (forall x, is_num (float_repr x)) -> torn_graphs float_repr d -> dev_start d o -> forall q, ~ in_out q -> d_fs (left_by o) q = d_fs d q.
Proof. intros d o Hr HT S q Hq. apply not_below in Hq. revert S q Hq. refine (start_kept float_parse float_repr sha c K stat d o _). intros p X. rewrite (torn_unread float_parse float_repr d Hr HT) in X. discriminate. Qed.
End Start.
Print Assumptions C72_wrong_settings.
Print Assumptions C72_quits.
Print Assumptions C72_kept.
Print Assumptions C72_recovered.
Print Assumptions C72_serves.
Print Assumptions C72_again.
Print Assumptions C72_torn.
Print Assumptions C72_torn_kept.

(** The example is the project of C70 and C71: a page with a stylesheet and a partial, another
    stylesheet and the constants file. *)
Example C72_premises : stat_ok w_stat /\ stat_detects w_stat /\ in_src (c_relpath exs_c) = true /\ starts_with (lit "/") (k_cwd pg_K) = true /\ (exists r, k_css pg_K = lit "src/public/" ++ r /\ starts_with (lit "/") r = false) /\
  (forall x, is_num (print_O x)) /\ (forall x, parse_O (print_O x) = Some x).
Proof. split; [exact (proj1 w_stat_ok)|]. split; [exact (proj2 w_stat_ok)|]. split; [reflexivity|]. split; [reflexivity|]. split; [exact pg_css|]. split; [exact is_num_print_O|exact parse_O_print]. Qed.
(** the partial was edited and refers to another stylesheet, which was edited as well: the build may
    raise (C71), the outputs recorded are below out, and the sources can be built *)
Example C72_linked : (exists d1, ds_raises true ds_linked d1) /\ records_out parse_O ds_linked /\ d_config ds_linked = Configured /\ (forall f, in_src f = true -> d_fs ds_linked f <> None -> source_name f /\ simple exs_c pg_K (d_fs ds_linked) f) /\
  exists s r p1, emptied ds_linked s /\ pgs_builds true (unbuilt s) r p1 /\ forall q, p_fs p1 q = p_fs (snd ds_fresh) q.
Proof. split; [exact ds_linked_raises|]. split; [exact (ds_records _)|]. split; [reflexivity|]. split; [exact ds_linked_simple|]. destruct ds_linked_first as (r & p1 & X). exists (d_fs (without_out ds_linked)), r, p1. split; [exact (ds_emptied _)|exact X]. Qed.
(** so the server is started, after a failed build with the new site *)
Example C72_linked_serves : exists d1 d2, ds_raises true ds_linked d1 /\ ds_start ds_linked (Serves d2).
Proof.
  destruct C72_linked as ((d1 & H) & A & B & C & (s & r & p1 & E & D & _)). destruct (C72_again _ print_O _ _ _ _ (proj1 w_stat_ok) _ _ _ _ _ A B E D H) as (d2 & X). eauto.
Qed.
(** the dependency graph is cut off after 100 characters *)
Example C72_torn_case : torn_graphs print_O ds_torn /\ d_config ds_torn = Configured /\ (forall f, in_src f = true -> d_fs ds_torn f <> None -> source_name f /\ simple exs_c pg_K (d_fs ds_torn) f) /\
  exists s r p1, emptied ds_torn s /\ pgs_builds true (unbuilt s) r p1 /\ forall q, p_fs p1 q = p_fs (snd ds_first) q.
Proof. split; [exact ds_torn_ok|]. split; [reflexivity|]. split; [exact ds_torn_simple|]. destruct ds_torn_first as (r & p1 & X). exists (d_fs (without_out ds_torn)), r, p1. split; [exact (ds_emptied _)|exact X]. Qed.
(** wrong settings: the out folder is not empty before *)
Example C72_wrong_case : exists d, d_config d = Wrong /\ d_fs d (www (lit "index.html")) <> None /\ exists d2, ds_start d (Raises d2) /\ d_fs d2 (www (lit "index.html")) = None.
Proof.
  exists (mkStored Wrong (fs_set (www (lit "index.html")) (lit "<p>") pg_sources) None None None None). split; [reflexivity|]. split; [discriminate|]. eexists. split; [eapply dev_gives_up; apply raises_config; reflexivity|reflexivity].
Qed.

(** What is false: a folder whose site was damaged is served as it is, since the sources are
    unedited ... *)
Theorem C72_stale_refuted : exists d d2 p, ds_start d (Serves d2) /\ (forall f, in_src f = true -> d_fs d f = p_fs p f) /\ pgs_just_built true p /\ d_fs d2 (www (lit "css/main.css")) = Some (lit "p {") /\ p_fs p (www (lit "css/main.css")) = Some (lit "p { color: red }").
Proof.
  destruct ds_stale_serves as (d2 & H & E). exists ds_stale, d2, (snd ds_first). split; [exact H|]. split.
  - intros f I. unfold ds_stale, ds_folder. cbn [d_fs]. unfold fs_set. destruct (str_eqb f ds_main_out) eqn:X; [apply str_eqb_eq in X; subst f; discriminate I|reflexivity].
  - split; [exact ds_first_just|]. split; [rewrite E; reflexivity|exact ds_main_text].
Qed.
(** ... and if the output graph has a source among the outputs, that source is lost. *)
Theorem C72_damaged_refuted : exists d d2 f, ds_start d (Serves d2) /\ in_src f = true /\ d_fs d f <> None /\ d_fs d2 f = None.
Proof. destruct ds_wrong_lost as (d2 & H & E). exists ds_wrong, d2, pg_extra. split; [exact H|]. split; [reflexivity|]. split; [exact ds_wrong_extra|exact E]. Qed.
Print Assumptions C72_stale_refuted.
Print Assumptions C72_damaged_refuted.
