(** A session in which a rebuild fails while it builds the page, and the next one makes it again. *)
From Verif Require Import Base Graph GraphSpec PyStr PyPath PyNorm PathSpec Json JsonProofs GraphJson Octal Css NestSpec Html HtmlSpec Js Builder JsYield JsManip JsManipSpec Handlers Hot HotSpec HotDrive HotGraphs HotResultSpec HotResultExamples HotWantSpec Cold ColdSpec ColdExamples ColdStopRun
  Project ProjectSpec ProjectExamples ProjectSite ProjectSiteProofs ProjectSiteExamples ProjectPageExamples ProjectOrderSpec DevStart DevStartSpec DevStartProofs DevStartSite DevStartExamples FolderSpec FolderProofs FolderExamples Dev DevSpec Watch WatchSpec WatchMain WatchProofs WatchExamples SessionSpec SessionProofs PropsDevStart.
From Coq Require Import String ZArith NArith Bool List.
Import ListNotations.
Open Scope list_scope.

Notation se_session := (session parse_O print_O ex_sha exs_c pg_K w_stat 100).
#[local] Opaque ds_first fd_built www.
Lemma se_started : se_session wt_base wt_w0 wt_h0 fd_built.
Proof. exact (s_started _ _ _ _ _ _ _ true pg_sources fd_new fd_built 0 fd_new_folder fd_new_named (dev_first _ _ _ _ _ _ _ _ fd_built_completes)). Qed.
(** the partial is deleted: the page cannot be built *)
Definition se_w1 : world := after (Deleted pg_nav) wt_w0.
Definition se_h1 : watcher := on_event (Deleted pg_nav) 1 wt_h0.
Definition se_d1 : stored := with_files Configured (fs_del pg_nav wt_base) fd_built.
Lemma se_deleted : se_session wt_base se_w1 se_h1 se_d1.
Proof.
  exact (s_edited _ _ _ _ _ _ _ wt_base wt_w0 wt_h0 fd_built (Deleted pg_nav) (fs_del pg_nav wt_base) Configured 1 se_started (wt_there _ wt_nav_in) (wt_del _ _ (wt_base_some _ wt_nav_in) eq_refl)).
Qed.
Lemma se_take1 : take 100 200 se_h1 = Some (wt_batch se_h1, wt_emptied se_h1).
Proof. vm_compute. reflexivity. Qed.
Definition se_run1 := run_fail parse_O pgs_build pgs_scan w_stat (c_relpath exs_c) 60 se_d1 (wt_batch se_h1) [pg_page].
Definition se_r1 : fs * option str := match se_run1 with Some x => x | None => (wt_base, None) end.
Definition se_d2 : stored := mkStored Configured (fst se_r1) (snd se_r1) (d_D se_d1) (d_O se_d1) (d_P se_d1).
Lemma se_fails : wt_fails_building se_d1 (wt_batch se_h1) se_d2.
Proof.
  assert (X : wt_early se_run1 = true) by (vm_cast_no_check (eq_refl true)). apply (wt_early_the _ (wt_base, None)) in X. exact (run_fail_sound parse_O pgs_build pgs_scan w_stat (c_relpath exs_c) 60 se_d1 (wt_batch se_h1) [pg_page] _ _ X).
Qed.
Definition se_h2 : watcher := failed (now_there se_w1) (wt_batch se_h1) (wt_emptied se_h1).
Lemma se_broke : se_session wt_base se_w1 se_h2 se_d2.
Proof. exact (s_broke _ _ _ _ _ _ _ _ _ _ _ 200 _ _ _ se_deleted se_take1 eq_refl se_fails). Qed.
#[local] Opaque se_r1 se_d2.
(** the page was there and is missing now *)
Definition se_page := lit "index.html".
Lemma se_page_lost : d_fs se_d1 (www se_page) <> None /\ d_fs se_d2 (www se_page) = None.
Proof. split; [|apply ds_none_spec; vm_cast_no_check (eq_refl true)]. assert (X : match d_fs se_d1 (www se_page) with Some _ => true | None => false end = true) by (vm_cast_no_check (eq_refl true)). intros Y. rewrite Y in X. discriminate X. Qed.
(** the partial is written again *)
Lemma se_nav_gone : d_fs se_d2 pg_nav = None.
Proof. apply ds_none_spec. vm_cast_no_check (eq_refl true). Qed.
Definition se_nav := lit " new menu".
Definition se_w3 : world := after (Created pg_nav) se_w1.
Definition se_h3 : watcher := on_event (Created pg_nav) 301 se_h2.
Definition se_d3 : stored := with_files Configured (fs_set pg_nav se_nav (d_fs se_d2)) se_d2.
Lemma se_possible : possible (Created pg_nav) se_w1.
Proof. vm_compute. reflexivity. Qed.
Lemma se_restored : se_session wt_base se_w3 se_h3 se_d3.
Proof. exact (s_edited _ _ _ _ _ _ _ wt_base se_w1 se_h2 se_d2 (Created pg_nav) (fs_set pg_nav se_nav (d_fs se_d2)) Configured 301 se_broke se_possible (wt_set _ _ _ _ (or_intror (conj eq_refl se_nav_gone)) eq_refl)). Qed.
Lemma se_take3 : take 100 500 se_h3 = Some (wt_batch se_h3, wt_emptied se_h3).
Proof. vm_compute. reflexivity. Qed.
Definition se_p4 := wt_the (wt_run se_d3 (wt_batch se_h3) [pg_nav; pg_page] pg_names).
Definition se_d4 : stored := wt_stored se_p4.
Lemma se_rebuilds : wt_rebuilds se_d3 (wt_batch se_h3) se_d4.
Proof. apply wt_sound; [reflexivity|]. vm_cast_no_check (eq_refl true). Qed.
Lemma se_page_back : d_fs se_d4 (www se_page) <> None.
Proof. assert (X : match d_fs se_d4 (www se_page) with Some _ => true | None => false end = true) by (vm_cast_no_check (eq_refl true)). intros Y. rewrite Y in X. discriminate X. Qed.
(** the sources of the folder *)
Lemma se_sources f : in_src f = true -> d_fs se_d2 f = d_fs se_d1 f.
Proof.
  intros I. destruct C72_premises as (H1 & H2 & H3 & H4 & H5 & H6 & H7). eapply (inv_kept parse_O print_O); [exact (session_inv parse_O print_O H6 H7 ex_sha exs_c pg_K w_stat 100 H1 H2 H3 H4 H5 _ _ _ _ se_deleted)|right; right; exact se_fails|]. apply not_below, src_not_below, I.
Qed.
Lemma se_d1_src f : d_fs se_d1 f = if str_eqb f pg_nav then None else wt_base f.
Proof. reflexivity. Qed.
Lemma se_named3 : named se_d3.
Proof.
  apply wt_named. intros f I. unfold fs_set. destruct (str_eqb f pg_nav) eqn:E; [intros _; apply str_eqb_eq in E; subst f; exact wt_nav_in|]. rewrite (se_sources f I), se_d1_src, E. apply wt_base_names, I.
Qed.
Lemma se_touched1 f : touched se_w1 f -> f = pg_nav.
Proof. intros [[]|X]. exact X. Qed.
Lemma se_touched3 f : touched se_w3 f -> f = pg_nav.
Proof. intros [X|X]; [apply se_touched1, X|exact X]. Qed.
Lemma se_base_nav : wt_base pg_nav = Some (lit " menu").
Proof. apply wt_is_spec. vm_cast_no_check (eq_refl true). Qed.
Lemma se_d3_nav : d_fs se_d3 pg_nav = Some se_nav.
Proof. apply wt_is_spec. vm_cast_no_check (eq_refl true). Qed.
Lemma se_edited2 : really_edited wt_base se_w1 se_d2.
Proof. intros f _ T. apply se_touched1 in T. subst f. rewrite se_nav_gone, se_base_nav. discriminate. Qed.
Lemma se_edited3 : really_edited wt_base se_w3 se_d3.
Proof. intros f _ T. apply se_touched3 in T. subst f. rewrite se_d3_nav, se_base_nav. intros X. discriminate X. Qed.
