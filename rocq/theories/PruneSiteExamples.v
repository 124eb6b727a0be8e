(** The folders of a project when a stylesheet is deleted. *)
From Verif Require Import Base Graph GraphSpec PyStr PyPath PyNorm PathSpec Octal Css NestSpec Html HtmlSpec Js Builder JsYield JsManip JsManipSpec Handlers Hot HotSpec HotDrive HotGraphs HotResultSpec HotResultExamples HotWantSpec Cold ColdSpec ColdExamples Project ProjectSpec ProjectExamples ProjectHistory ProjectSite ProjectSiteProofs ProjectSiteExamples ProjectPageExamples
  Prune PruneSpec PruneProofs PruneExamples.
From Coq Require Import String ZArith NArith Bool List Lia Sorting.Sorted.
Import ListNotations.
Open Scope list_scope.

Definition ps_p : project := mkProject (fs_del pg_extra (p_fs (snd pgs_first))) (p_mode (snd pgs_first)) (p_D (snd pgs_first)) (p_O (snd pgs_first)) (p_P (snd pgs_first)).
Lemma ps_site : pgs_site false (p_fs (snd pgs_first)) ps_p.
Proof. apply site_edited; [exact pg_first_site|]. intros r. generalize (p_fs (snd pgs_first)). intros s. reflexivity. Qed.
Definition ps_files (g : graph) : list str := flat_map (api_children g) (dkeys g).
Lemma ps_files_right g f o : depends g f o -> In o (ps_files g).
Proof.
  intros H. apply in_flat_map. exists f. split; [|exact H]. unfold depends, api_children, get_children in H. destruct (dget f g) eqn:E; [eapply dget_Some_key; exact E|destruct H].
Qed.
Lemma ps_css : exists r, k_css pg_K = lit "src/public/" ++ r /\ starts_with (lit "/") r = false.
Proof. exact ex_css. Qed.
Definition ps_prepared := prepare (p_D ps_p) (p_O ps_p) (p_P ps_p) [] [] [pg_extra].
Definition ps_nothing : env := mkEnv [] [] [] [] [] [] [] [].
Definition ps_e : env := match ps_prepared with Ret (e, _) => e | Raise _ => ps_nothing end.
Definition ps_m : dict str := match ps_prepared with Ret (_, m) => m | Raise _ => [] end.
Definition ps_tree : tree := match write_files (ps_files (p_O ps_p)) pr_empty with Some t => t | None => pr_empty end.
Definition ps_order := [lit "out/www/css"; lit "out/www"; lit "out"].
Definition ps_check : bool :=
  match ps_prepared with
  | Raise _ => false
  | Ret (e, _) => match e_dirty_out e, possibly_empty (e_dirty_out e ++ e_dirty_art e) with [], _ | _, None => false | _, Some cand => same_b ps_order cand end
  end && forallb (proper_b 47) (ps_files (p_O ps_p)).
Lemma ps_check_ok : ps_check = true.
Proof. vm_cast_no_check (eq_refl true). Qed.
#[local] Opaque pgs_first ps_prepared ps_p ps_tree.
Arguments ps_files : simpl never.
Lemma ps_facts : ps_prepared = Ret (ps_e, ps_m) /\ e_dirty_out ps_e <> [] /\ (exists cand, possibly_empty (e_dirty_out ps_e ++ e_dirty_art ps_e) = Some cand /\ forall d, In d ps_order <-> In d cand) /\ forall f, In f (ps_files (p_O ps_p)) -> proper f.
Proof.
  pose proof ps_check_ok as H. unfold ps_check, ps_e, ps_m in *. apply andb_true_iff in H. destruct H as (H & H2). destruct ps_prepared as [(e, m)|x]; [|discriminate H]. split; [reflexivity|]. destruct (e_dirty_out e) as [|o l] eqn:Eo; [discriminate H|]. split; [discriminate|].
  destruct (possibly_empty ((o :: l) ++ e_dirty_art e)) as [cand|]; [|discriminate H]. split; [|apply proper_all; exact H2]. exists cand. split; [reflexivity|]. intros d. apply same_b_spec. exact H.
Qed.
#[local] Transparent ps_tree.
Lemma ps_written : write_files (ps_files (p_O ps_p)) pr_empty = Some ps_tree /\ sound ps_tree /\ (forall x, In x (t_files ps_tree) <-> In x (ps_files (p_O ps_p))) /\ tidy ps_tree.
Proof.
  destruct ps_facts as (_ & _ & _ & Hp). destruct (writes_right (ps_files (p_O ps_p)) pr_empty Hp pr_empty_sound) as (t & E & S & F & D). unfold ps_tree. rewrite E. split; [reflexivity|]. split; [exact S|]. split; [intros x; split; intros X; [apply F in X; destruct X as [[]|X]; exact X|apply F; right; exact X]|].
  intros d Hd. apply D in Hd. destruct Hd as [[]|(w & A & B)]. exists w. split; [apply F; right; exact A|exact B].
Qed.
#[local] Opaque ps_tree.
Lemma ps_sorted : StronglySorted (fun a b : str => (length b <= length a)%nat) ps_order.
Proof. repeat (constructor; [|repeat (constructor; [apply Nat.leb_le; vm_compute; reflexivity|]); constructor]). constructor. Qed.
Lemma ps_nodup : NoDup ps_order.
Proof. apply nodup_b_spec. vm_compute. reflexivity. Qed.
Lemma ps_rebuild : exists r, rebuild_tree (e_dirty_out ps_e) (e_dirty_art ps_e) [] [] ps_tree r.
Proof.
  destruct ps_facts as (_ & _ & (cand & E & Hi) & _). eexists. exact (pruned (e_dirty_out ps_e) (e_dirty_art ps_e) [] [] ps_tree cand ps_order _ E eq_refl ps_nodup Hi ps_sorted).
Qed.
(** everything in out/www is an output that the project knows *)
Lemma site_outputs sha c K stat dev last p q : stat_ok stat -> stat_detects stat -> in_src (c_relpath c) = true -> starts_with (lit "/") (k_cwd K) = true -> (exists r, k_css K = lit "src/public/" ++ r /\ starts_with (lit "/") r = false) ->
  site sha c K stat dev last p -> p_fs p (www q) <> None -> In (www q) (ps_files (p_O p)).
Proof.
  intros H1 H2 H3 H4 H5 HS H. destruct (site_kept sha c K stat H1 H2 H3 H4 H5 dev last p HS) as ((_ & _ & _ & A & _) & _ & _ & Q & _). rewrite Q in H. destruct (A q H) as (f & Hf). exact (ps_files_right _ _ _ Hf).
Qed.
Lemma ps_all (q : str) : p_fs ps_p (www q) <> None -> In (www q) (t_files ps_tree).
Proof.
  intros H. exact (proj2 (proj1 (proj2 (proj2 ps_written)) (www q)) (site_outputs ex_sha exs_c pg_K w_stat false _ ps_p q (proj1 w_stat_ok) (proj2 w_stat_ok) eq_refl eq_refl ps_css ps_site H)).
Qed.
#[local] Transparent ps_prepared.
Lemma ps_ready : prepare (p_D ps_p) (p_O ps_p) (p_P ps_p) [] [] [pg_extra] = Ret (ps_e, ps_m).
Proof. exact (proj1 ps_facts). Qed.
#[local] Opaque ps_prepared ps_e ps_m.
Lemma ps_meets : stat_ok w_stat /\ stat_detects w_stat /\ in_src (c_relpath exs_c) = true /\ starts_with (lit "/") (k_cwd pg_K) = true /\ (exists q, k_css pg_K = lit "src/public/" ++ q /\ starts_with (lit "/") q = false) /\
  site ex_sha exs_c pg_K w_stat false (p_fs (snd pgs_first)) ps_p /\ prepare (p_D ps_p) (p_O ps_p) (p_P ps_p) [] [] [pg_extra] = Ret (ps_e, ps_m) /\ e_dirty_out ps_e <> [] /\
  sound ps_tree /\ tidy ps_tree /\ (forall q, p_fs ps_p (www q) <> None -> In (www q) (t_files ps_tree)) /\ exists r, rebuild_tree (e_dirty_out ps_e) (e_dirty_art ps_e) [] [] ps_tree r.
Proof.
  split; [exact (proj1 w_stat_ok)|]. split; [exact (proj2 w_stat_ok)|]. split; [reflexivity|]. split; [reflexivity|]. split; [exact ps_css|]. split; [exact ps_site|]. split; [exact ps_ready|]. split; [exact (proj1 (proj2 ps_facts))|].
  split; [exact (proj1 (proj2 ps_written))|]. split; [exact (proj2 (proj2 (proj2 ps_written)))|]. split; [exact ps_all|exact ps_rebuild].
Qed.
