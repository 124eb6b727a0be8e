(** A small project with stylesheets: built, and built again after an edit of a picture. *)
From Verif Require Import Base Graph GraphSpec GraphProofs PyStr PyPath PyNorm PathSpec Json Js Builder JsYield JsManip JsManipSpec Handlers Hot HotSpec HotDrive HotGraphs HotResultSpec HotResultExamples HotWantSpec Cold ColdSpec ColdExamples
  Project ProjectSpec ProjectExamples ProjectSite ProjectSiteProofs ProjectSiteExamples ColdMain.
From Coq Require Import String ZArith NArith Bool List.
Import ListNotations.
Open Scope list_scope.

Definition sh_main := lit "src/public/css/main.css". Definition sh_page := lit "src/public/page.css". Definition sh_logo := lit "src/public/img/logo.png".
Definition sh_names := [sh_main; sh_page; sh_logo; c_relpath exs_c].
Definition sh_text_main := lit ".btn { background: url(/img/logo.png); color: red }" ++ [10%N].
Definition sh_text_page := lit ".big {" ++ [10%N] ++ lit "  /*! PREPROCESSOR: import .btn */" ++ [10%N] ++ lit "  width: 10px" ++ [10%N] ++ lit "}" ++ [10%N].
Definition sh_sources : fs := fs_set sh_main sh_text_main (fs_set sh_page sh_text_page (fs_set sh_logo (lit "picture") (fs_set (c_relpath exs_c) (lit "// constants") (fun _ => None)))).
Definition sh_change (s : fs) : fs := fs_set sh_logo (lit "new picture") s.
Notation shs_build := (fun dev => file_build ex_sha exs_c dev ex_K).
Notation shs_scan := (scan_no_placeholders exs_c ex_K).
Notation shs_site := (site ex_sha exs_c ex_K w_stat).
Notation shs_builds := (builds ex_sha exs_c ex_K w_stat).
Definition shs_run (dev : bool) (p : project) (order : list str) : option (option run * project) := run_cold (shs_build dev) shs_scan w_stat (c_relpath exs_c) dev 1 60 p sh_names order sh_names.
Definition shs_run_done (o : option (option run * project)) : bool := match o with Some _ => true | None => false end.
Lemma shs_done o : shs_run_done o = true -> o = Some (the o).
Proof. destruct o; [reflexivity|discriminate]. Qed.
Lemma shs_sound dev p order x : lists (p_fs p) sh_names -> shs_run dev p order = Some x -> shs_builds dev p (fst x) (snd x).
Proof. intros HL H. destruct x as [r p1]. unfold shs_run in H. exact (run_cold_sound _ _ _ _ _ _ _ _ _ _ _ _ _ HL H). Qed.

Definition shs_new : project := mkProject sh_sources None empty_graph empty_graph empty_graph.
Definition shs_first := the (shs_run false shs_new sh_names).
Definition shs_edited : project := mkProject (sh_change (p_fs (snd shs_first))) (p_mode (snd shs_first)) (p_D (snd shs_first)) (p_O (snd shs_first)) (p_P (snd shs_first)).
Definition shs_second := the (shs_run false shs_edited [sh_logo; sh_main; sh_page]).
Lemma shs_first_ok : shs_run false shs_new sh_names = Some shs_first.
Proof. apply shs_done. vm_compute. reflexivity. Qed.
Lemma shs_second_ok : shs_run false shs_edited [sh_logo; sh_main; sh_page] = Some shs_second.
Proof. apply shs_done. vm_compute. reflexivity. Qed.
Lemma sh_sources_names f : sh_sources f <> None <-> In f sh_names.
Proof.
  unfold sh_sources, sh_names, fs_set. split.
  - intros H. destruct (str_eqb f sh_main) eqn:E1; [apply str_eqb_eq in E1; subst; simpl; auto|]. destruct (str_eqb f sh_page) eqn:E2; [apply str_eqb_eq in E2; subst; simpl; auto|].
    destruct (str_eqb f sh_logo) eqn:E3; [apply str_eqb_eq in E3; subst; simpl; auto|]. destruct (str_eqb f (c_relpath exs_c)) eqn:E4; [apply str_eqb_eq in E4; rewrite E4; simpl; auto|]. contradiction.
  - intros [<-|[<-|[<-|[<-|[]]]]]; vm_compute; discriminate.
Qed.
Lemma sh_names_src f : In f sh_names -> in_src f = true /\ source_name f.
Proof. intros [<-|[<-|[<-|[<-|[]]]]]; (split; [reflexivity|apply source_b_spec; vm_compute; reflexivity]). Qed.
Lemma sh_lists s : (forall f, in_src f = true -> s f <> None <-> sh_sources f <> None) -> lists s sh_names.
Proof.
  intros H. split.
  - repeat constructor; vm_compute; intuition discriminate.
  - intros f. rewrite <- sh_sources_names. split.
    + intros X. assert (I : in_src f = true) by (apply sh_names_src, sh_sources_names, X). split; [exact I|]. apply H; assumption.
    + intros (I & X). apply H; assumption.
Qed.
Lemma sh_proper s : lists s sh_names -> forall f, in_src f = true -> s f <> None -> source_name f.
Proof. intros (_ & L) f I X. apply sh_names_src, L. auto. Qed.
Lemma sh_first_lists : lists (p_fs shs_new) sh_names.
Proof. apply sh_lists. intros f _. reflexivity. Qed.
Lemma sh_new_site dev : shs_site dev sh_sources shs_new.
Proof. apply site_new. intros r. reflexivity. Qed.
Lemma sh_first_builds : shs_builds false shs_new (fst shs_first) (snd shs_first).
Proof. exact (shs_sound _ _ _ _ sh_first_lists shs_first_ok). Qed.
Lemma sh_first_site : shs_site false (p_fs (snd shs_first)) (snd shs_first).
Proof. eapply site_built; [exact (sh_new_site true)|exact (sh_proper _ sh_first_lists)|exact sh_first_builds]. Qed.
Lemma sh_edited_site : shs_site false (p_fs (snd shs_first)) shs_edited.
Proof. apply site_edited; [exact sh_first_site|]. intros r. generalize (p_fs (snd shs_first)). intros s. reflexivity. Qed.
Lemma sh_edited_lists : lists (p_fs shs_edited) sh_names.
Proof.
  apply sh_lists. intros f I. unfold shs_edited. cbn [p_fs]. unfold sh_change, fs_set. destruct (str_eqb f sh_logo) eqn:E; [apply str_eqb_eq in E; subst f; split; vm_compute; discriminate|].
  rewrite (built_sources ex_sha exs_c ex_K w_stat (proj1 w_stat_ok) (proj2 w_stat_ok) eq_refl eq_refl ex_css true sh_sources shs_new false _ _ (sh_new_site true) sh_first_builds f (in_src_not_out f I)). reflexivity.
Qed.
Lemma sh_second_builds : shs_builds false shs_edited (fst shs_second) (snd shs_second).
Proof. exact (shs_sound _ _ _ _ sh_edited_lists shs_second_ok). Qed.
Notation shs_just_built := (just_built ex_sha exs_c ex_K w_stat).
Lemma sh_second_just : shs_just_built false (snd shs_second).
Proof. exists false, (p_fs (snd shs_first)), shs_edited, (fst shs_second). split; [exact sh_edited_site|]. split; [exact (sh_proper _ sh_edited_lists)|exact sh_second_builds]. Qed.
Lemma sh_first_just : shs_just_built false (snd shs_first).
Proof. exists true, sh_sources, shs_new, (fst shs_first). split; [exact (sh_new_site true)|]. split; [exact (sh_proper _ sh_first_lists)|exact sh_first_builds]. Qed.

