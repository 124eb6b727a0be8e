(** Property C76: the folders that a rebuild leaves. *)
From Coq Require Import String ZArith NArith Bool List Sorting.Sorted.
From Verif Require Import Base Graph GraphSpec PyStr PyPath PyNorm PathSpec Js Builder JsYield JsManip JsManipSpec Handlers Hot HotSpec HotGraphs HotResultSpec HotWantSpec Cold ColdSpec ColdExamples Project ProjectSpec ProjectExamples ProjectSite ProjectSiteProofs ProjectSiteExamples ProjectPageExamples DevStartProofs Prune PruneSpec PruneProofs PruneExamples PruneSiteExamples.
Import ListNotations.
Open Scope list_scope.

(** A rebuild that removes existing files completes, and exactly those folders are gone around the removed
    outputs and dirty artifacts in which nothing is left; all other folders and all files remain. *)
Theorem C76_folders : forall outs arts written still t r, sound t -> (forall f, In f outs \/ In f arts -> In f (t_files t)) -> (forall f, In f written -> proper f) -> (forall f, In f still -> In f arts) -> rebuild_tree outs arts written still t r ->
  exists t', r = Ret t' /\ sound t' /\ (forall f, In f (t_files t') <-> files_after outs written still t f) /\
    forall d, In d (t_dirs t') <-> (In d (t_dirs t) \/ exists w, In w written /\ inside d w) /\
      ((forall f, In f outs \/ In f arts -> ~ inside d f) \/ occupied t' d \/ exists x, In x (t_dirs t) /\ inside d x /\ forall f, In f outs \/ In f arts -> ~ inside x f).
Proof.
  intros outs arts written still t r Ht Ho Hw Hst HR. assert (Hp : forall f, In f outs \/ In f arts -> proper f) by (intros f Hf; apply (Ht f); left; apply Ho, Hf).
  destruct (rebuild_exact outs arts written still t r Ht Hp Hw HR) as (t' & E & S & F & D); [intros d (f & Hf & Hi); left; apply (Ht f); [left; apply Ho, Hf|exact Hi]|]. exists t'. split; [exact E|]. split; [exact S|]. split; [exact F|].
  intros d. rewrite D. unfold made, candidate. split; intros (A & B); (split; [exact A|]).
  - destruct B as [B|(x & [B|(B1 & B2)] & C)]; [left; intros f Hf Hi; apply B; eauto|right; left; exists x; auto|]. destruct B1 as [B1|(w & W1 & W2)].
    + right. right. exists x. split; [exact B1|]. split; [exact C|]. intros f Hf Hi. apply B2. eauto.
    + right. left. exists w. split; [apply F; split; [auto|]; intros X; apply B2; exists w; auto|exact (inside_trans _ _ _ C W2)].
  - destruct B as [B|[(f & B1 & B2)|(x & B1 & B2 & B3)]]; [left; intros (f & Hf & Hi); exact (B f Hf Hi)|right; exists f; auto|]. right. exists x. split; [right; split; [auto|]; intros (f & Hf & Hi); exact (B3 f Hf Hi)|exact B2].
Qed.
(** If every folder held a file somewhere, then so it is afterwards: the folders are exactly those of the files. *)
Theorem C76_tidy : forall outs arts written still t t', sound t -> tidy t -> (forall f, In f outs \/ In f arts -> proper f) -> (forall f, In f written -> proper f) -> (forall f, In f still -> In f arts) -> rebuild_tree outs arts written still t (Ret t') ->
  forall d, In d (t_dirs t') <-> occupied t' d.
Proof. intros outs arts written still t t' Ht Hti Ho Hw Hst HR. exact (rebuild_tidy outs arts written still t (Ret t') Ht Ho Hw HR t' eq_refl Hti Hst). Qed.
(** The order in which the set of folders is iterated and the order in which the files are written do not matter. *)
Theorem C76_order : forall outs arts written1 written2 still t t1 r, sound t -> (forall f, In f outs \/ In f arts -> proper f) -> (forall f, In f written1 -> proper f) -> (forall f, In f written1 <-> In f written2) ->
  rebuild_tree outs arts written1 still t (Ret t1) -> rebuild_tree outs arts written2 still t r -> exists t2, r = Ret t2 /\ (forall f, In f (t_files t1) <-> In f (t_files t2)) /\ forall d, In d (t_dirs t1) <-> In d (t_dirs t2).
Proof.
  intros outs arts written1 written2 still t t1 r Ht Ho Hw He H1 H2. assert (Hw2 : forall f, In f written2 -> proper f) by (intros f Hf; apply Hw, He, Hf).
  assert (Hm : forall d, made written1 t d <-> made written2 t d) by (intros d; unfold made; split; (intros [X|(w & X & Y)]; [auto|right; exists w; split; [apply He, X|exact Y]])).
  assert (Hc : forall d, candidate outs arts d -> made written1 t d).
  { intros d Hd. destruct (in_dec (list_eq_dec N.eq_dec) d (t_dirs t)) as [X|X]; [left; exact X|]. destruct (rebuild_parts outs arts written1 still t (Ret t1) Ht Ho Hw H1) as (order & t0 & E & _ & _ & Hi & _ & _ & D). apply D. destruct (in_dec (list_eq_dec N.eq_dec) d (t_dirs t0)) as [Y|Y]; [exact Y|]. exfalso. rewrite (prune_missing order t0 d) in E; [discriminate|apply Hi, Hd|exact Y]. }
  destruct (rebuild_exact outs arts written1 still t (Ret t1) Ht Ho Hw H1 Hc) as (t1' & E1 & _ & F1 & D1). injection E1 as <-. destruct (rebuild_exact outs arts written2 still t r Ht Ho Hw2 H2 (fun d Hd => proj1 (Hm d) (Hc d Hd))) as (t2 & E2 & _ & F2 & D2). exists t2. split; [exact E2|].
  assert (F : forall f, In f (t_files t1) <-> In f (t_files t2)) by (intros f; rewrite F1, F2; unfold files_after; rewrite He; reflexivity). split; [exact F|].
  intros d. rewrite D1, D2, Hm. split; intros (A & B); (split; [exact A|]); (destruct B as [B|(x & B & C)]; [auto|right; exists x; split; [|exact C]; specialize (F x); specialize (Hm x); tauto]).
Qed.
(** If a folder around a removed output is missing and no build makes it, then the rebuild fails, although the
    missing output itself is tolerated. *)
Theorem C76_missing : forall outs arts written still t r f d, sound t -> (forall f, In f outs \/ In f arts -> proper f) -> (forall f, In f written -> proper f) -> rebuild_tree outs arts written still t r ->
  In f outs \/ In f arts -> inside d f -> ~ In d (t_dirs t) -> (forall w, In w written -> ~ inside d w) -> r = Raise FileNotFoundError.
Proof. intros outs arts written still t r f d Ht Ho Hw HR Hf Hi Hd Hn. apply (rebuild_fails outs arts written still t r Ht Ho Hw HR d); [exists f; auto|]. intros [X|(w & X & Y)]; [contradiction|exact (Hn w X Y)]. Qed.
(** In a project with any history of builds and edits that leave the out folder alone, the removal of folders never
    fails. *)
Theorem C76_project : forall sha c K stat dev last p scans placeholders deleted e m written still t r,
  stat_ok stat -> stat_detects stat -> in_src (c_relpath c) = true -> starts_with (lit "/") (k_cwd K) = true -> (exists q, k_css K = lit "src/public/" ++ q /\ starts_with (lit "/") q = false) ->
  site sha c K stat dev last p -> prepare (p_D p) (p_O p) (p_P p) scans placeholders deleted = Ret (e, m) ->
  sound t -> (forall q, p_fs p (www q) <> None -> In (www q) (t_files t)) -> (forall f, In f written -> proper f) -> (forall f, In f still -> In f (e_dirty_art e)) -> rebuild_tree (e_dirty_out e) (e_dirty_art e) written still t r ->
  exists t', r = Ret t' /\ sound t' /\ (tidy t -> forall d, In d (t_dirs t') <-> occupied t' d).
Proof.
  intros sha c K stat dev last p scans placeholders deleted e m written still t r H1 H2 H3 H4 H5 HS HP Ht Hf Hw Hst HR.
  destruct (site_kept sha c K stat H1 H2 H3 H4 H5 dev last p HS) as (G & _ & _ & Q & _). destruct (prepare_in _ _ _ _ _ _ _ _ HP) as (A & B). assert (Ho : forall f, In f (e_dirty_out e) \/ In f (e_dirty_art e) -> In f (t_files t)).
  { intros o Ho. assert (X : exists f, depends (p_O p) f o) by (destruct Ho as [Ho|Ho]; [apply A, Ho|apply B, Ho]). destruct X as (f & X). destruct (good_output sha c K _ _ _ _ _ f o G X) as (y & ->). apply Hf. rewrite Q. destruct G as (_ & _ & (L1 & L2) & _). destruct (L2 f (L1 f _ X)) as (rs & ws & _ & W1 & W2 & _). apply W1 in X. apply in_map_iff in X. destruct X as ((o' & x) & Eo & Hi). cbn [fst] in Eo. subst o'. rewrite (W2 _ _ Hi). discriminate. }
  destruct (C76_folders _ _ _ _ _ _ Ht Ho Hw Hst HR) as (t' & E & S & _). exists t'. split; [exact E|]. split; [exact S|]. intros Hti. subst r. refine (C76_tidy _ _ _ _ _ _ Ht Hti _ Hw Hst HR). intros f X. apply (Ht f). left. apply Ho, X.
Qed.
(** A build that is killed after it removed folders, and before it stored the graphs, makes later builds fail: they
    remove the same outputs again. *)
Theorem C76_killed_refuted : ~ forall outs t t1, sound t -> tidy t -> (forall f, In f outs -> In f (t_files t)) -> rebuild_tree outs [] [] [] t (Ret t1) -> exists t2, rebuild_tree outs [] [] [] t1 (Ret t2).
Proof.
  intros H. destruct (H pr_outs pr_tree pr_after pr_sound pr_tidy) as (t2 & X); [intros f Hf; vm_compute in Hf; vm_compute; tauto|exact pr_rebuild|].
  enough (Y : Ret t2 = Raise FileNotFoundError) by discriminate Y. apply (C76_missing pr_outs [] [] [] pr_after (Ret t2) pr_icon (lit "out/www/css/icons") pr_after_sound).
  - intros f [Hf|[]]. apply pr_files_proper. right. exact Hf.
  - intros f [].
  - exact X.
  - left. right. left. reflexivity.
  - exists (lit "a.svg"). reflexivity.
  - intros [Z|[Z|[]]]; discriminate Z.
  - intros w [].
Qed.
(** A site whose stylesheets are removed: the folders of the stylesheets go, those of the page stay. *)
Example C76_site : sound pr_tree /\ tidy pr_tree /\ rebuild_tree pr_outs [] [] [] pr_tree (Ret pr_after) /\ t_dirs pr_after = [lit "out/www"; lit "out"] /\ In (lit "out/www/css/icons") (t_dirs pr_tree).
Proof. split; [exact pr_sound|]. split; [exact pr_tidy|]. split; [exact pr_rebuild|]. split; [reflexivity|]. vm_compute. tauto. Qed.
(** the build after a killed one *)
Example C76_stuck : sound pr_after /\ rebuild_tree pr_outs [] [] [] pr_after (Raise FileNotFoundError).
Proof. split; [exact pr_after_sound|exact pr_again]. Qed.
Print Assumptions C76_folders.
Print Assumptions C76_tidy.
Print Assumptions C76_order.
Print Assumptions C76_missing.
(** a project with a page, of which a stylesheet is deleted *)
Example C76_page : stat_ok w_stat /\ stat_detects w_stat /\ in_src (c_relpath exs_c) = true /\ starts_with (lit "/") (k_cwd pg_K) = true /\ (exists q, k_css pg_K = lit "src/public/" ++ q /\ starts_with (lit "/") q = false) /\
  site ex_sha exs_c pg_K w_stat false (p_fs (snd pgs_first)) ps_p /\ prepare (p_D ps_p) (p_O ps_p) (p_P ps_p) [] [] [pg_extra] = Ret (ps_e, ps_m) /\ e_dirty_out ps_e <> [] /\
  sound ps_tree /\ tidy ps_tree /\ (forall q, p_fs ps_p (www q) <> None -> In (www q) (t_files ps_tree)) /\ exists r, rebuild_tree (e_dirty_out ps_e) (e_dirty_art ps_e) [] [] ps_tree r.
Proof. exact ps_meets. Qed.
Print Assumptions C76_project.
Print Assumptions C76_killed_refuted.
