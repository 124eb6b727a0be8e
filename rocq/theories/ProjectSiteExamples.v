(** A small project under the build command: built, edited, and built for development. *)
From Verif Require Import Base Graph GraphSpec GraphProofs PyStr PyPath PyNorm PathSpec Json Js Builder JsYield JsManip JsManipSpec Handlers Hot HotSpec HotDrive HotGraphs HotResultSpec HotResultExamples HotWantSpec Cold ColdSpec ColdExamples
  Project ProjectSpec ProjectExamples ProjectSite ProjectSiteProofs ColdMain.
From Coq Require Import String ZArith NArith Bool List.
Import ListNotations.
Open Scope list_scope.

Definition exs_c : constants := {| c_relpath := lit "src/public/constants.js"; c_shared := []; c_dev := [(lit "N", VInt 3)]; c_prod := [(lit "N", VInt 40)] |}.
Notation exs_build := (fun dev => file_build ex_sha exs_c dev ex_K).
Notation exs_scan := (scan_no_placeholders exs_c ex_K).
Notation exs_site := (site ex_sha exs_c ex_K w_stat).
Notation exs_builds := (builds ex_sha exs_c ex_K w_stat).
Definition exs_run (dev : bool) (p : project) (order : list str) : option (option run * project) := run_cold (exs_build dev) exs_scan w_stat (c_relpath exs_c) dev 1 60 p ex_names order ex_names.
Definition exs_run_done (o : option (option run * project)) : bool := match o with Some _ => true | None => false end.
Lemma exs_done o : exs_run_done o = true -> o = Some (the o).
Proof. destruct o; [reflexivity|discriminate]. Qed.
Lemma exs_sound dev p order x : lists (p_fs p) ex_names -> exs_run dev p order = Some x -> exs_builds dev p (fst x) (snd x).
Proof. intros HL H. destruct x as [r p1]. unfold exs_run in H. exact (run_cold_sound _ _ _ _ _ _ _ _ _ _ _ _ _ HL H). Qed.

Definition exs_new : project := mkProject ex_sources None empty_graph empty_graph empty_graph.
Definition exs_first := the (exs_run false exs_new ex_names).
Definition exs_edited : project := mkProject (ex_change (p_fs (snd exs_first))) (p_mode (snd exs_first)) (p_D (snd exs_first)) (p_O (snd exs_first)) (p_P (snd exs_first)).
Definition exs_second := the (exs_run true exs_edited [c_relpath exs_c; ex_b; ex_a]).
Lemma exs_first_ok : exs_run false exs_new ex_names = Some exs_first.
Proof. apply exs_done. vm_compute. reflexivity. Qed.
Lemma exs_second_ok : exs_run true exs_edited [c_relpath exs_c; ex_b; ex_a] = Some exs_second.
Proof. apply exs_done. vm_compute. reflexivity. Qed.
Lemma ex_sources_names f : ex_sources f <> None <-> In f ex_names.
Proof.
  unfold ex_sources, ex_names, fs_set. split.
  - intros H. destruct (str_eqb f ex_a) eqn:E1; [apply str_eqb_eq in E1; subst; simpl; auto|]. destruct (str_eqb f ex_b) eqn:E2; [apply str_eqb_eq in E2; subst; simpl; auto|].
    destruct (str_eqb f (c_relpath ex_c)) eqn:E3; [apply str_eqb_eq in E3; rewrite E3; simpl; auto|]. destruct (str_eqb f ex_logo) eqn:E4; [apply str_eqb_eq in E4; subst; simpl; auto|]. contradiction.
  - intros [<-|[<-|[<-|[<-|[]]]]]; vm_compute; discriminate.
Qed.
Lemma ex_names_src f : In f ex_names -> in_src f = true /\ source_name f.
Proof. intros [<-|[<-|[<-|[<-|[]]]]]; (split; [reflexivity|apply source_b_spec; vm_compute; reflexivity]). Qed.
Lemma ex_lists s : (forall f, in_src f = true -> s f <> None <-> ex_sources f <> None) -> lists s ex_names.
Proof.
  intros H. split.
  - repeat constructor; vm_compute; intuition discriminate.
  - intros f. rewrite <- ex_sources_names. split.
    + intros X. assert (I : in_src f = true) by (apply ex_names_src, ex_sources_names, X). split; [exact I|]. apply H; assumption.
    + intros (I & X). apply H; assumption.
Qed.
Lemma ex_proper s : lists s ex_names -> forall f, in_src f = true -> s f <> None -> source_name f.
Proof. intros (_ & L) f I X. apply ex_names_src, L. auto. Qed.
Lemma first_lists : lists (p_fs exs_new) ex_names.
Proof. apply ex_lists. intros f _. reflexivity. Qed.
Lemma new_site dev : exs_site dev ex_sources exs_new.
Proof. apply site_new. intros r. reflexivity. Qed.
Lemma first_builds : exs_builds false exs_new (fst exs_first) (snd exs_first).
Proof. exact (exs_sound _ _ _ _ first_lists exs_first_ok). Qed.
Lemma first_site : exs_site false (p_fs (snd exs_first)) (snd exs_first).
Proof. eapply site_built; [exact (new_site true)|exact (ex_proper _ first_lists)|exact first_builds]. Qed.
Lemma edited_site : exs_site false (p_fs (snd exs_first)) exs_edited.
Proof. apply site_edited; [exact first_site|]. intros r. generalize (p_fs (snd exs_first)). intros s. reflexivity. Qed.
Lemma edited_lists : lists (p_fs exs_edited) ex_names.
Proof.
  apply ex_lists. intros f I. unfold exs_edited. cbn [p_fs]. unfold ex_change, fs_set. destruct (str_eqb f ex_b) eqn:E; [apply str_eqb_eq in E; subst f; split; vm_compute; discriminate|].
  rewrite (built_sources ex_sha exs_c ex_K w_stat (proj1 w_stat_ok) (proj2 w_stat_ok) eq_refl eq_refl ex_css true ex_sources exs_new false _ _ (new_site true) first_builds f (in_src_not_out f I)). reflexivity.
Qed.
Lemma second_builds : exs_builds true exs_edited (fst exs_second) (snd exs_second).
Proof. exact (exs_sound _ _ _ _ edited_lists exs_second_ok). Qed.
Notation exs_just_built := (just_built ex_sha exs_c ex_K w_stat).
Lemma second_just : exs_just_built true (snd exs_second).
Proof. exists false, (p_fs (snd exs_first)), exs_edited, (fst exs_second). split; [exact edited_site|]. split; [exact (ex_proper _ edited_lists)|exact second_builds]. Qed.
Lemma first_just : exs_just_built false (snd exs_first).
Proof. exists true, ex_sources, exs_new, (fst exs_first). split; [exact (new_site true)|]. split; [exact (ex_proper _ first_lists)|exact first_builds]. Qed.
