(** Property C75: rebuilds of the development server that fail while they build files. *)
From Coq Require Import String ZArith NArith Bool List Relations.
From Verif Require Import Base Graph GraphSpec PyStr PyPath PyNorm PathSpec Json JsonProofs GraphJson Octal Css NestSpec Html HtmlSpec Js Builder JsYield JsManip JsManipSpec Handlers Hot HotSpec HotGraphs HotResultSpec HotWantSpec Cold ColdSpec ColdExamples
  Project ProjectSpec ProjectExamples ProjectSite ProjectSiteProofs ProjectSiteExamples ProjectPageExamples ProjectOrderSpec DevStart DevStartSpec DevStartProofs DevStartSite DevStartExamples FolderSpec FolderProofs FolderExamples PropsDevStart PropsFolder
  Dev DevSpec Watch WatchSpec WatchMain WatchProofs WatchExamples SessionSpec SessionProofs SessionExamples.
Import ListNotations.
Open Scope list_scope.

Section Session.
Context (float_parse : str -> option Z) (float_repr : Z -> str).
Context (Hnum : forall x, is_num (float_repr x)) (Hinv : forall x, float_parse (float_repr x) = Some x).
Context (sha : str -> str) (c : constants) (K : setting) (stat : fs -> str -> option fsig) (debounce : Z).
Context (Hstat : stat_ok stat) (Hdet : stat_detects stat) (Hconst : in_src (c_relpath c) = true) (Hcwd : starts_with (lit "/") (k_cwd K) = true) (Hcss : exists r, k_css K = lit "src/public/" ++ r /\ starts_with (lit "/") r = false).
Notation builds := (builds sha c K stat).
Notation completes := (completes float_parse float_repr (fun dev => file_build sha c dev K) (scan_no_placeholders c K) stat (c_relpath c)).
Notation raises := (raises float_parse (fun dev => file_build sha c dev K) (scan_no_placeholders c K) stat (c_relpath c)).
Notation dev_start := (dev_start float_parse float_repr (fun dev => file_build sha c dev K) (scan_no_placeholders c K) stat (c_relpath c)).
Notation rebuilds := (rebuilds float_parse float_repr (fun dev => file_build sha c dev K) (scan_no_placeholders c K) stat (c_relpath c)).
Notation fails_early := (fails_early float_parse (scan_no_placeholders c K) stat (c_relpath c)).
Notation fails_building := (fails_building float_parse (fun dev => file_build sha c dev K) (scan_no_placeholders c K) stat (c_relpath c)).
Notation crashes := (crashes float_parse stat).
Notation session := (session float_parse float_repr sha c K stat debounce).
Notation just_completed := (just_completed float_parse float_repr sha c K stat).
Notation session_inv := (session_inv float_parse float_repr Hnum Hinv sha c K stat debounce Hstat Hdet Hconst Hcwd Hcss).
Notation unspoilt := (nothing_unspoilt float_parse sha c K stat debounce).

(** While nothing happened since the last completed rebuild, the site is the one of a first build in development
    mode, whatever rebuilds failed before. *)
Theorem C75_current : forall last w h d s r p1, session last w h d -> nothing_since w -> named d -> emptied d s -> builds true (unbuilt s) r p1 -> forall q, d_fs d (www q) = p_fs p1 (www q).
Proof. intros last w h d s r p1 H N. apply session_inv in H. apply (inv_first float_parse sha c K stat debounce Hstat Hdet Hconst Hcwd Hcss last w h); [apply unspoilt; assumption|eapply nothing_sources; eassumption]. Qed.
(** And the one that a build command or a start of the server leaves for the same sources, in whatever folder. *)
Theorem C75_same : forall last w h d d2, session last w h d -> nothing_since w -> just_completed true d2 -> (forall f, in_src f = true -> d_fs d f = d_fs d2 f) -> forall r, d_fs d (www r) = d_fs d2 (www r).
Proof. intros last w h d d2 H N. apply session_inv in H. apply (inv_same float_parse float_repr Hnum Hinv sha c K stat debounce Hstat Hdet Hconst Hcwd Hcss last w h); [apply unspoilt; assumption|eapply nothing_sources; eassumption]. Qed.
(** The next rebuild that completes makes up for those that failed: its site is the one of a first build. *)
Theorem C75_rebuilt : forall last w h d now b h' d1 s r p1, session last w h d -> named d -> take debounce now h = Some (b, h') -> rebuilds d b d1 -> emptied d s -> builds true (unbuilt s) r p1 -> forall q, d_fs d1 (www q) = p_fs p1 (www q).
Proof.
  intros last w h d now b h' d1 s r p1 H Hn Ht HR He HB. assert (E : forall q, ~ in_out q -> d_fs d1 q = d_fs d q).
  { eapply inv_kept; [apply session_inv; exact H|left; exact HR]. }
  apply (C75_current (d_fs d1) (DevSpec.just_built (now_there w)) (succeeded h') d1 s r p1); [eapply s_rebuilt; eassumption|intros f []| | |exact HB].
  - intros f I X. apply (Hn f I). rewrite <- E; [exact X|]. apply not_below, src_not_below, I.
  - intros q. destruct (He q) as (A & B). split; [exact A|]. intros Hq. rewrite (E q Hq). exact (B Hq).
Qed.
(** Until then, each file of the site is as the last completed rebuild left it, unless it was made from a source
    that was touched or deleted since, directly or through other files. *)
Theorem C75_until : forall last w h d, session last w h d -> exists p, read_project float_parse d = Some p /\ forall r, d_fs d (www r) = last (www r) \/
  exists x f, last x <> None /\ in_src x = true /\ (d_fs d x = None \/ touched w x) /\ clos_refl_trans str (used_by (p_D p) (p_P p)) x f /\ depends (p_O p) f (www r).
Proof.
  intros last w h d H. apply session_inv in H. destruct H as (p & R & HW & _ & _ & _ & Hn & Ha & _). exists p. split; [exact R|]. intros r. destruct HW as (_ & _ & _ & Q & _). destruct (read_fs _ _ _ R) as (Ef & _). rewrite <- Ef. destruct (Q r) as [X|(_ & x & f & A & B & C & D)]; [auto|right].
  rewrite Ha in A. apply there_true in A. destruct A as (A1 & A2). exists x, f. split; [exact A2|]. split; [exact A1|]. split; [|auto]. destruct B as [B|B]; [left|auto]. rewrite Ef. rewrite Hn in B. unfold there in B. rewrite A1 in B. destruct (d_fs d x); [discriminate|reflexivity].
Qed.
(** No edit is forgotten. *)
Theorem C75_noticed : forall last w h d now f, session last w h d -> in_src f = true -> d_fs d f <> last f -> unbuildable h = false -> (debounce <= now - last_change h)%Z -> exists b h', take debounce now h = Some (b, h').
Proof. intros last w h d now f H. apply session_inv in H. eapply inv_noticed. exact H. Qed.
(** The server does not stop. *)
Theorem C75_runs : forall last w h d now b h', session last w h d -> d_config d = Configured -> take debounce now h = Some (b, h') -> ~ crashes d b.
Proof. intros last w h d now b h' H. apply session_inv in H. eapply (inv_runs _ _ _ _ _ _ Hstat). exact H. Qed.
(** No rebuild changes a file that is not in the out folder. *)
Theorem C75_kept : forall last w h d b d1, session last w h d -> rebuilds d b d1 \/ fails_early d b d1 \/ fails_building d b d1 -> forall q, ~ in_out q -> d_fs d1 q = d_fs d q.
Proof. intros last w h d b d1 H. apply session_inv in H. eapply inv_kept. exact H. Qed.
(** If nothing happened since the last completed rebuild, a build for development or another start of the server
    has nothing to do. *)
Theorem C75_restart : forall last w h d, session last w h d -> nothing_since w -> d_config d = Configured -> (forall d2, completes true d d2 <-> d2 = d) /\ (forall d2, ~ raises true d d2) /\ forall o, dev_start d o <-> o = Serves d.
Proof. intros last w h d H N. apply session_inv in H. apply (inv_left float_parse float_repr sha c K stat debounce Hstat last w h); [apply unspoilt; assumption|exact N]. Qed.
(** A build command, in either mode, that completes at any moment of the session makes the site of a first build,
    if the sources that events told of are different from those of the last completed rebuild. *)
Theorem C75_build : forall last w h d dev d1 s r p1, session last w h d -> really_edited last w d -> named d -> completes dev d d1 -> emptied d s -> builds dev (unbuilt s) r p1 -> forall q, d_fs d1 (www q) = p_fs p1 (www q).
Proof. exact (session_built float_parse float_repr Hnum Hinv sha c K stat debounce Hstat Hdet Hconst Hcwd Hcss). Qed.
End Session.

(** A session: a partial is deleted, so that the rebuild of the page fails after the page was removed; the partial is
    written again, and the next rebuild completes. *)
Example C75_session : se_session wt_base se_w1 se_h1 se_d1 /\ take 100 200 se_h1 = Some (wt_batch se_h1, wt_emptied se_h1) /\ wt_fails_building se_d1 (wt_batch se_h1) se_d2 /\ se_session wt_base se_w1 se_h2 se_d2 /\
  se_session wt_base se_w3 se_h3 se_d3 /\ take 100 500 se_h3 = Some (wt_batch se_h3, wt_emptied se_h3) /\ named se_d3 /\ wt_rebuilds se_d3 (wt_batch se_h3) se_d4.
Proof. split; [exact se_deleted|]. split; [exact se_take1|]. split; [exact se_fails|]. split; [exact se_broke|]. split; [exact se_restored|]. split; [exact se_take3|]. split; [exact se_named3|exact se_rebuilds]. Qed.
Example C75_session_site : d_fs se_d1 (www (lit "index.html")) <> None /\ d_fs se_d2 (www (lit "index.html")) = None /\ d_fs se_d4 (www (lit "index.html")) <> None.
Proof. destruct se_page_lost as (A & B). split; [exact A|]. split; [exact B|exact se_page_back]. Qed.
(** at the end nothing happened since the last completed rebuild *)
Example C75_session_end : se_session (d_fs se_d4) (DevSpec.just_built (now_there se_w3)) (succeeded (wt_emptied se_h3)) se_d4 /\ nothing_since (DevSpec.just_built (now_there se_w3)) /\ d_config se_d4 = Configured.
Proof. split; [exact (s_rebuilt _ _ _ _ _ _ _ _ _ _ _ 500 _ _ _ se_restored se_named3 se_take3 se_rebuilds)|]. split; [intros f []|reflexivity]. Qed.
(** the sources that events told of are different after the failed rebuild *)
Example C75_edited : really_edited wt_base se_w1 se_d2 /\ really_edited wt_base se_w3 se_d3.
Proof. split; [exact se_edited2|exact se_edited3]. Qed.
Print Assumptions C75_current.
Print Assumptions C75_same.
Print Assumptions C75_rebuilt.
Print Assumptions C75_until.
Print Assumptions C75_noticed.
Print Assumptions C75_runs.
Print Assumptions C75_kept.
Print Assumptions C75_restart.
Print Assumptions C75_build.
