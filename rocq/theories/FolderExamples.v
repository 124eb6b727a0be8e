(** A history of the project of DevStartExamples.v. *)
From Verif Require Import Base Graph GraphSpec PyStr PyPath PyNorm PathSpec Json JsonProofs GraphJson Octal Css NestSpec Html HtmlSpec Js Builder JsYield JsManip JsManipSpec Handlers Hot HotSpec HotGraphs HotResultSpec HotWantSpec Cold ColdSpec ColdExamples
  Project ProjectSpec ProjectExamples ProjectSite ProjectSiteProofs ProjectSiteExamples ProjectPageExamples ProjectOrderSpec DevStart DevStartSpec DevStartProofs DevStartSite DevStartExamples FolderSpec FolderProofs.
From Coq Require Import String ZArith NArith Bool List.
Import ListNotations.
Open Scope list_scope.

Notation fd_folder := (folder parse_O print_O ex_sha exs_c pg_K w_stat).
Notation fd_just := (just_completed parse_O print_O ex_sha exs_c pg_K w_stat).
Definition fd_new : stored := mkStored Configured pg_sources None None None None.
Lemma fd_new_folder : fd_folder true pg_sources fd_new.
Proof. apply folder_new. intros r. apply ds_sources_src. reflexivity. Qed.
Lemma fd_ascii : forallb (forallb (fun x => (x <? 128)%N)) pg_names = true.
Proof. vm_compute. reflexivity. Qed.
Lemma fd_like d : ds_like (d_fs d) -> (forall f, in_src f = true -> d_fs d f <> None -> source_name f) -> named d.
Proof.
  intros L H f I X. split; [apply H; assumption|]. apply os_ascii. pose proof fd_ascii as A. rewrite forallb_forall in A. apply A. apply pg_sources_names. apply (L f I). exact X.
Qed.
Lemma fd_new_named : named fd_new.
Proof. apply fd_like; [intros f I; reflexivity|]. exact (pg_proper _ pg_first_lists). Qed.
Definition fd_ran {A B} (o : option A * B) : bool := match fst o with Some _ => true | None => false end.
Lemma fd_ran_spec {A B} (o : option A * B) : fd_ran o = true -> exists w, fst o = Some w.
Proof. destruct o as [[w|] b]; [exists w; reflexivity|discriminate]. Qed.
Lemma fd_first_ran : fd_ran ds_first = true.
Proof. vm_compute. reflexivity. Qed.
Lemma fd_run w dev d p p1 : d_config d = Configured -> read_project parse_O d = Some p -> pgs_builds dev p (Some w) p1 -> ds_completes dev d (mkStored (d_config d) (p_fs p1) (p_mode p1) (ds_text (p_D p1)) (ds_text (p_O p1)) (ds_text (p_P p1))).
Proof. intros A B C. exact (completes_run _ _ _ _ _ _ _ _ p w p1 A B C). Qed.
(** the first build *)
Definition fd_built : stored := ds_folder (p_fs (snd ds_first)).
Lemma fd_built_completes : ds_completes true fd_new fd_built.
Proof. destruct (fd_ran_spec _ fd_first_ran) as (w & E). pose proof ds_first_builds as B. rewrite E in B. exact (fd_run w true fd_new pgs_new (snd ds_first) eq_refl eq_refl B). Qed.
Lemma fd_built_folder : fd_folder true (d_fs fd_built) fd_built.
Proof. exact (folder_built _ _ _ _ _ _ _ _ _ _ _ fd_new_folder fd_new_named fd_built_completes). Qed.
Lemma fd_built_just : fd_just true fd_built.
Proof. exists true, pg_sources, fd_new. split; [exact fd_new_folder|]. split; [exact fd_new_named|left; exact fd_built_completes]. Qed.
(** then the partial and a stylesheet are edited *)
Lemma fd_link_out s r : ds_link s (www r) = s (www r).
Proof. apply ds_link_other; discriminate. Qed.
Lemma fd_linked_folder : fd_folder true (d_fs fd_built) ds_linked.
Proof. exact (folder_edited _ _ _ _ _ _ _ _ fd_built (ds_link (p_fs (snd ds_first))) Configured fd_built_folder (fd_link_out _)). Qed.
Lemma fd_linked_named : named ds_linked.
Proof. apply fd_like; [exact (ds_link_like _ ds_first_like)|]. intros f I X. apply (ds_linked_simple f I X). Qed.
Lemma fd_link_nav s : ds_link s pg_nav = Some (lit "LINK").
Proof. vm_compute. reflexivity. Qed.
Lemma fd_differs (o : option str) : match o with Some t => negb (str_eqb t (lit "LINK")) | None => true end = true -> Some (lit "LINK") <> o.
Proof. intros H <-. vm_compute in H. discriminate. Qed.
Lemma fd_nav_edited : d_fs ds_linked pg_nav <> d_fs fd_built pg_nav.
Proof. unfold ds_linked, fd_built, ds_folder. cbn [d_fs]. rewrite fd_link_nav. apply fd_differs. rewrite (ds_kept pg_nav eq_refl). vm_compute. reflexivity. Qed.
