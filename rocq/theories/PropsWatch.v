(** Property C74: the development server watching a project. *)
From Coq Require Import String ZArith NArith Bool List.
From Verif Require Import Base Graph GraphSpec PyStr PyPath PyNorm PathSpec Json JsonProofs GraphJson Octal Css NestSpec Html HtmlSpec Js Builder JsYield JsManip JsManipSpec Handlers Hot HotSpec HotGraphs HotResultSpec HotWantSpec Cold ColdSpec ColdExamples
  Project ProjectSpec ProjectExamples ProjectSite ProjectSiteProofs ProjectSiteExamples ProjectPageExamples ProjectOrderSpec DevStart DevStartSpec DevStartProofs DevStartSite DevStartExamples FolderSpec FolderProofs FolderExamples PropsDevStart PropsFolder
  Dev DevSpec Watch WatchSpec WatchMain WatchProofs WatchExamples.
Import ListNotations.
Open Scope list_scope.

Section Watch.
Context (float_parse : str -> option Z) (float_repr : Z -> str).
Context (Hnum : forall x, is_num (float_repr x)) (Hinv : forall x, float_parse (float_repr x) = Some x).
Context (sha : str -> str) (c : constants) (K : setting) (stat : fs -> str -> option fsig) (debounce : Z).
Context (Hstat : stat_ok stat) (Hdet : stat_detects stat) (Hconst : in_src (c_relpath c) = true) (Hcwd : starts_with (lit "/") (k_cwd K) = true) (Hcss : exists r, k_css K = lit "src/public/" ++ r /\ starts_with (lit "/") r = false).
Notation builds := (builds sha c K stat).
Notation completes := (completes float_parse float_repr (fun dev => file_build sha c dev K) (scan_no_placeholders c K) stat (c_relpath c)).
Notation raises := (raises float_parse (fun dev => file_build sha c dev K) (scan_no_placeholders c K) stat (c_relpath c)).
Notation dev_start := (dev_start float_parse float_repr (fun dev => file_build sha c dev K) (scan_no_placeholders c K) stat (c_relpath c)).
Notation rebuilds := (rebuilds float_parse float_repr (fun dev => file_build sha c dev K) (scan_no_placeholders c K) stat (c_relpath c)).
Notation fails_early := (fails_early float_parse (scan_no_placeholders c K) stat (c_relpath c)).
Notation fails_building := (fails_building float_parse (fun dev => file_build sha c dev K) (scan_no_placeholders c K) stat (c_relpath c)).
Notation crashes := (crashes float_parse stat).
Notation watching := (watching float_parse float_repr sha c K stat debounce).
Notation just_completed := (just_completed float_parse float_repr sha c K stat).

(** While the sources are as they were at the last completed rebuild, the site is the one of a first build in
    development mode. *)
Theorem C74_current : forall last w h d s r p1, watching last w h d -> (forall f, in_src f = true -> d_fs d f = last f) -> named d -> emptied d s -> builds true (unbuilt s) r p1 -> forall q, d_fs d (www q) = p_fs p1 (www q).
Proof. exact (current_first float_parse float_repr Hnum Hinv sha c K stat debounce Hstat Hdet Hconst Hcwd Hcss). Qed.
(** And the one that a build command or a start of the server leaves for the same sources, in whatever folder. *)
Theorem C74_same : forall last w h d d2, watching last w h d -> (forall f, in_src f = true -> d_fs d f = last f) -> just_completed true d2 -> (forall f, in_src f = true -> d_fs d f = d_fs d2 f) -> forall r, d_fs d (www r) = d_fs d2 (www r).
Proof. exact (current_same float_parse float_repr Hnum Hinv sha c K stat debounce Hstat Hdet Hconst Hcwd Hcss). Qed.
(** Each completed rebuild makes the site of a first build of the sources at that time. *)
Theorem C74_rebuilt : forall last w h d now b h' d1 s r p1, watching last w h d -> named d -> take debounce now h = Some (b, h') -> rebuilds d b d1 -> emptied d s -> builds true (unbuilt s) r p1 -> forall q, d_fs d1 (www q) = p_fs p1 (www q).
Proof.
  intros last w h d now b h' d1 s r p1 H Hn Ht HR He HB. assert (E : forall q, ~ in_out q -> d_fs d1 q = d_fs d q).
  { exact (sources_kept float_parse float_repr Hnum Hinv sha c K stat debounce Hstat Hdet Hconst Hcwd Hcss _ _ _ _ _ _ H (or_introl HR)). }
  apply (C74_current (d_fs d1) (DevSpec.just_built (now_there w)) (succeeded h') d1 s r p1); [eapply w_rebuilt; eassumption|reflexivity| | |exact HB].
  - intros f I X. apply (Hn f I). rewrite <- E; [exact X|]. apply not_below, src_not_below, I.
  - intros q. destruct (He q) as (A & B). split; [exact A|]. intros Hq. rewrite (E q Hq). exact (B Hq).
Qed.
(** Until then visitors get the files of the last completed rebuild: neither edits nor rebuilds that fail
    before they build anything change them. *)
Theorem C74_until : forall last w h d, watching last w h d -> forall r, d_fs d (www r) = last (www r).
Proof. intros last w h d H. eapply inv_site. exact (watching_inv float_parse float_repr Hnum Hinv sha c K stat debounce Hstat Hdet Hconst Hcwd Hcss _ _ _ _ H). Qed.
(** No edit is forgotten: as long as a source differs from the last completed rebuild, the next check after the
    debounce time takes a batch, unless the previous one failed and nothing was edited since. *)
Theorem C74_noticed : forall last w h d now f, watching last w h d -> in_src f = true -> d_fs d f <> last f -> unbuildable h = false -> (debounce <= now - last_change h)%Z -> exists b h', take debounce now h = Some (b, h').
Proof. exact (noticed float_parse float_repr Hnum Hinv sha c K stat debounce Hstat Hdet Hconst Hcwd Hcss). Qed.
(** Without an edit nothing is rebuilt. *)
Theorem C74_idle : forall last w h d now, watching last w h d -> nothing_since w -> take debounce now h = None.
Proof. intros last w h d now H N. eapply nothing_none; [exact (watching_inv float_parse float_repr Hnum Hinv sha c K stat debounce Hstat Hdet Hconst Hcwd Hcss _ _ _ _ H)|exact N]. Qed.
(** The server does not stop: the graphs can be loaded again, and every file that is handed over exists. *)
Theorem C74_runs : forall last w h d now b h', watching last w h d -> d_config d = Configured -> take debounce now h = Some (b, h') -> ~ crashes d b.
Proof. exact (never_crashes float_parse float_repr Hnum Hinv sha c K stat debounce Hstat Hdet Hconst Hcwd Hcss). Qed.
(** A rebuild, also one that fails, leaves all files as they are that are not in the out folder. *)
Theorem C74_kept : forall last w h d b d1, watching last w h d -> rebuilds d b d1 \/ fails_early d b d1 \/ fails_building d b d1 -> forall q, ~ in_out q -> d_fs d1 q = d_fs d q.
Proof. exact (sources_kept float_parse float_repr Hnum Hinv sha c K stat debounce Hstat Hdet Hconst Hcwd Hcss). Qed.
(** If nothing happened since the last completed rebuild, a build for development or another start of the server has nothing to do. *)
Theorem C74_restart : forall last w h d, watching last w h d -> nothing_since w -> d_config d = Configured -> (forall d2, completes true d d2 <-> d2 = d) /\ (forall d2, ~ raises true d d2) /\ forall o, dev_start d o <-> o = Serves d.
Proof. exact (nothing_left float_parse float_repr Hnum Hinv sha c K stat debounce Hstat Hdet Hconst Hcwd Hcss). Qed.
(** A build command, in either mode, that completes at any moment of the session makes the site of a first build. *)
Theorem C74_build : forall last w h d dev d1 s r p1, watching last w h d -> named d -> completes dev d d1 -> emptied d s -> builds dev (unbuilt s) r p1 -> forall q, d_fs d1 (www q) = p_fs p1 (www q).
Proof. exact (built_after float_parse float_repr Hnum Hinv sha c K stat debounce Hstat Hdet Hconst Hcwd Hcss). Qed.
End Watch.

(** A rebuild that fails while files are built may leave an old copy of a file that was added: the rebuild
    that completes later does not copy the file again (copy.py:42-43). *)
Theorem C74_stale_refuted : ~ forall sha c K stat float_parse float_repr debounce last w h d now b h' d1 w2 h2 d2 now2 b2 h2' d3 f r text,
  (stat_ok stat /\ stat_detects stat /\ in_src (c_relpath c) = true /\ starts_with (lit "/") (k_cwd K) = true /\ (exists r, k_css K = lit "src/public/" ++ r /\ starts_with (lit "/") r = false) /\
    (forall x, is_num (float_repr x)) /\ (forall x, float_parse (float_repr x) = Some x)) ->
  watching float_parse float_repr sha c K stat debounce last w h d -> named d -> take debounce now h = Some (b, h') ->
  fails_building float_parse (fun dev => file_build sha c dev K) (scan_no_placeholders c K) stat (c_relpath c) d b d1 -> edits w (failed (now_there w) b h') d1 w2 h2 d2 ->
  take debounce now2 h2 = Some (b2, h2') -> rebuilds float_parse float_repr (fun dev => file_build sha c dev K) (scan_no_placeholders c K) stat (c_relpath c) d2 b2 d3 ->
  build_with (c_relpath c) f = CopyAndHash -> f = lit "src/public/" ++ r -> d_fs d3 f = Some text -> d_fs d3 (www r) = Some text.
Proof.
  intros H. assert (X : d_fs wt_d9 (www (lit "logo.png")) = Some wt_new).
  { refine (H ex_sha exs_c pg_K w_stat parse_O print_O 100%Z _ _ _ _ 200%Z _ _ _ _ _ _ 500%Z _ _ _ wt_logo (lit "logo.png") wt_new C72_premises wt_missing wt_named5 wt_take5 wt_fails5 wt_edits wt_take8 wt_rebuilds8 _ _ wt_new_source); reflexivity. }
  rewrite wt_old_output in X. injection X as X. discriminate X.
Qed.

(** A session: the server is started in a new project, a stylesheet is edited, and the rebuild completes. *)
Example C74_session : wt_watching wt_base wt_w0 wt_h0 fd_built /\ wt_watching wt_base wt_w1 wt_h1 wt_d1 /\ named wt_d1 /\ wt_rebuilds wt_d1 (wt_batch wt_h1) wt_d2 /\ wt_watching (d_fs wt_d2) wt_w2 wt_h2 wt_d2 /\ nothing_since wt_w2 /\ d_config wt_d2 = Configured.
Proof. split; [exact wt_started|]. split; [exact wt_edited|]. split; [exact wt_named1|]. split; [exact wt_rebuilds1|]. split; [exact wt_rebuilt|]. split; [exact wt_nothing2|reflexivity]. Qed.
Example C74_session_site : d_fs wt_d1 (www (lit "css/main.css")) = Some (lit "p { color: red }") /\ d_fs wt_d2 (www (lit "css/main.css")) = Some (lit "p { color: blue }").
Proof. split; [exact wt_main_out1|exact wt_main_out2]. Qed.
(** A session with a rebuild that fails, and is not repeated before the next event. *)
Example C74_failure : exists d4, wt_watching wt_base wt_w3 wt_h3 wt_d3 /\ take 100 200 wt_h3 = Some (wt_batch wt_h3, wt_emptied wt_h3) /\ wt_fails_early wt_d3 (wt_batch wt_h3) d4 /\
  wt_watching wt_base wt_w3 (failed (now_there wt_w3) (wt_batch wt_h3) (wt_emptied wt_h3)) d4.
Proof. destruct wt_fails3 as (d4 & X). exists d4. split; [exact wt_unscanned|]. split; [exact wt_take3|]. split; [exact X|]. exact (w_failed _ _ _ _ _ _ _ _ _ _ _ 200 _ _ _ wt_unscanned wt_take3 X). Qed.
(** the edited stylesheet of the session is noticed *)
Example C74_noticed_case : in_src pg_main = true /\ d_fs wt_d1 pg_main <> wt_base pg_main /\ unbuildable wt_h1 = false /\ (100 <= 200 - last_change wt_h1)%Z.
Proof. split; [reflexivity|]. split; [|split; [reflexivity|discriminate]]. intros X. assert (Y : wt_is (wt_base pg_main) (lit "p { color: red }") = true) by (vm_cast_no_check (eq_refl true)). apply wt_is_spec in Y. rewrite Y in X. vm_compute in X. discriminate X. Qed.
Print Assumptions C74_current.
Print Assumptions C74_same.
Print Assumptions C74_rebuilt.
Print Assumptions C74_until.
Print Assumptions C74_noticed.
Print Assumptions C74_idle.
Print Assumptions C74_runs.
Print Assumptions C74_kept.
Print Assumptions C74_restart.
Print Assumptions C74_build.
Print Assumptions C74_stale_refuted.
