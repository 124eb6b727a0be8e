(** Concrete runs showing which hypotheses of C11 and C12 are needed. *)
From Verif Require Import Base Graph GraphSpec GraphProofs GraphMain Hot HotSpec HotDrive HotDirtyProofs HotTermProofs HotMain.
From Coq Require Import String ZArith Bool List Relations Permutation.
Import ListNotations.
Open Scope list_scope.

(** boolean versions of the decidable hypotheses *)
Definition incl_b (l1 l2 : list str) : bool := forallb (fun x => mem x l2) l1.
Lemma incl_b_spec l1 l2 : incl_b l1 l2 = true -> forall x, In x l1 -> In x l2.
Proof. unfold incl_b. rewrite forallb_forall. intros H x Hx. apply mem_In. auto. Qed.

Lemma project_graphs_intro osD osO osP :
  incl_b (dkeys (history osD)) (dkeys (history osO)) = true -> incl_b (dkeys (history osP)) (dkeys (history osD)) = true ->
  project_graphs (history osD) (history osO) (history osP).
Proof.
  intros H1 H2. repeat split; try apply history_well_formed; apply incl_b_spec; assumption.
Qed.

Definition w_build (names : list str) (f : str) (s : fs) : option build_result :=
  Some (mkBuild [] (if mem f names then [(lit "out/o", f)] else []) []).
Definition w_D (files : list str) : graph := history (map (fun f => OpAdd f 1 1 1 []) files).
Definition w_O (files : list str) : graph := history (OpAdd (lit "out/o") 1 1 1 [] :: map (fun f => OpAdd f 1 1 1 [lit "out/o"]) files).
Definition w_scans (files : list str) : dict scan_result := map (fun f => (f, mkScan [] [lit "out/o"])) files.
Definition w_fs : fs := fun p => Some p.
Definition three := [lit "x"; lit "y"; lit "z"].
Definition two := [lit "x"; lit "y"].

Lemma w_project files : incl_b (dkeys (w_D files)) (dkeys (w_O files)) = true -> project_graphs (w_D files) (w_O files) empty_graph.
Proof. intros H. apply (project_graphs_intro _ _ []); [exact H|reflexivity]. Qed.

Definition w_env (files : list str) : env := mkEnv (w_D files) (w_O files) empty_graph (w_scans files) [] files [lit "out/o"] [].
Lemma w_prepare3 : prepare (w_D three) (w_O three) empty_graph (w_scans three) [] [] = Ret (w_env three, [(lit "out/o", lit "z")]).
Proof. vm_compute. reflexivity. Qed.
Lemma w_prepare2 : prepare (w_D two) (w_O two) empty_graph (w_scans two) [] [] = Ret (w_env two, [(lit "out/o", lit "y")]).
Proof. vm_compute. reflexivity. Qed.

Definition w_final (files names : list str) (m : dict str) (fuel : nat) : sched :=
  match drive (w_build names) (w_env files) 1 fuel (init_sched (w_env files) files m w_fs) with Running s => s | Stopped _ s => s end.

Lemma three_producers : exists build D O scans e m order fs0 s f g o,
  project_graphs D O empty_graph /\ prepare D O empty_graph scans [] [] = Ret (e, m) /\
  NoDup order /\ (forall f, In f order <-> In f (e_orig e)) /\
  steps build e (init_sched e order m fs0) s /\ no_surprise e s /\
  In f (pending s) /\ In g (pending s) /\ f <> g /\ expects e f o /\ expects e g o /\ dirtied e o.
Proof.
  pose (s := w_final three three [(lit "out/o", lit "z")] 4).
  exists (w_build three), (w_D three), (w_O three), (w_scans three), (w_env three), [(lit "out/o", lit "z")], three, w_fs, s, (lit "y"), (lit "z"), (lit "out/o").
  split; [apply w_project; vm_compute; reflexivity|]. split; [apply w_prepare3|].
  split. { repeat constructor; vm_compute; intuition discriminate. }
  split; [reflexivity|].
  split. { pose proof (drive_sound (w_build three) (w_env three) 1 4 (init_sched (w_env three) three [(lit "out/o", lit "z")] w_fs) _ eq_refl) as H.
           unfold s, w_final. revert H. destruct (drive _ _ _ _ _); [auto|intros (H & _); exact H]. }
  assert (Hl : map (fun t => fst (fst t)) (log s) = [lit "x"]) by (vm_compute; reflexivity).
  split. { intros f d r o Hi Ho Hd. assert (Hf : In f [lit "x"]).
           { rewrite <- Hl. apply in_map_iff. exists (f, d, r). auto. }
           destruct Hf as [<-|[]]. left. exists (mkScan [] [lit "out/o"]). split; [vm_compute; reflexivity|].
           unfold dirtied in Hd. simpl in Hd. destruct Hd as [[<-|[]]|[]]. left. reflexivity. }
  assert (Hp : pending s = [lit "y"; lit "z"]) by (vm_compute; reflexivity). rewrite Hp.
  split; [left; reflexivity|]. split; [right; left; reflexivity|]. split; [vm_compute; discriminate|].
  split; [left; eexists; split; [vm_compute; reflexivity|left; reflexivity]|].
  split; [left; eexists; split; [vm_compute; reflexivity|left; reflexivity]|]. left. left. reflexivity.
Qed.

Lemma w_no_needs f c : ~ needs (w_env two) f c.
Proof.
  assert (Hs : forall sc, dget f (w_scans two) = Some sc -> s_deps sc = []).
  { intros sc H. apply dget_In in H. simpl in H. destruct H as [[= <- <-]|[[= <- <-]|[]]]; reflexivity. }
  intros [(sc & H & Hc)|[(_ & H)|H]].
  - rewrite (Hs sc H) in Hc. destruct Hc.
  - unfold depends, api_children, get_children in H. simpl e_D in H.
    assert (Hd : forall nd, dget f (w_D two) = Some nd -> n_children nd = []).
    { intros nd Hn. apply dget_In in Hn. vm_compute in Hn. destruct Hn as [[= <- <-]|[[= <- <-]|[]]]; reflexivity. }
    destruct (dget f (w_D two)) as [nd|]; [rewrite (Hd nd eq_refl) in H|]; destruct H.
  - assert (Hg : depends empty_graph c f).
    { unfold generator_of in H. destruct (dget f (e_scans (w_env two))); exact H. }
    destruct Hg.
Qed.

Lemma false_alarm : exists build D O scans e m order fs0 s s',
  project_graphs D O empty_graph /\ prepare D O empty_graph scans [] [] = Ret (e, m) /\
  NoDup order /\ (forall f, In f order <-> In f (e_orig e)) /\
  steps build e (init_sched e order m fs0) s /\ no_failure s /\ no_surprise e s /\ sources_known e m s /\
  step build e s (Stopped CyclicDependencyException s') /\ ~ circular e.
Proof.
  pose (s := w_final two [] [(lit "out/o", lit "y")] 9).
  exists (w_build []), (w_D two), (w_O two), (w_scans two), (w_env two), [(lit "out/o", lit "y")], two, w_fs, s, s.
  split; [apply w_project; vm_compute; reflexivity|]. split; [apply w_prepare2|].
  split. { repeat constructor; vm_compute; intuition discriminate. }
  split; [reflexivity|].
  assert (HS : match drive (w_build []) (w_env two) 1 9 (init_sched (w_env two) two [(lit "out/o", lit "y")] w_fs) with Stopped CyclicDependencyException _ => true | _ => false end = true) by (vm_compute; reflexivity).
  pose proof (drive_sound (w_build []) (w_env two) 1 9 (init_sched (w_env two) two [(lit "out/o", lit "y")] w_fs) _ eq_refl) as H.
  assert (Hst : steps (w_build []) (w_env two) (init_sched (w_env two) two [(lit "out/o", lit "y")] w_fs) s /\ step (w_build []) (w_env two) s (Stopped CyclicDependencyException s)).
  { unfold s, w_final. revert H HS. destruct (drive _ _ _ _ _) as [|x t]; [discriminate|]. intros H. destruct x; try discriminate. intros _. exact H. }
  split; [apply Hst|].
  assert (Hl : forall f d r, In (f, d, r) (log s) -> r = mkBuild [] [] []).
  { assert (Hm : map snd (log s) = [mkBuild [] [] []]) by (vm_compute; reflexivity). intros f d r Hi.
    assert (Hr : In r [mkBuild [] [] []]) by (rewrite <- Hm; apply in_map_iff; exists (f, d, r); auto). destruct Hr as [<-|[]]. reflexivity. }
  split. { split.
    - assert (He : executed s = [(lit "x", Some (mkBuild [] [] []))]) by (vm_compute; reflexivity). rewrite He. intros f. simpl.
      destruct (str_eqb f (lit "x")); discriminate.
    - intros f d r Hi. rewrite (Hl _ _ _ Hi). constructor. }
  split. { intros f d r o Hi Ho. rewrite (Hl _ _ _ Hi) in Ho. destruct Ho. }
  split. { intros f d r o Hi Ho. rewrite (Hl _ _ _ Hi) in Ho. destruct Ho. }
  split; [apply Hst|].
  intros (f & _ & Hc). apply clos_trans_t1n in Hc. destruct Hc as [y (_ & Hn)|y z (_ & Hn) _]; eapply w_no_needs; eassumption.
Qed.

(** ** unconditional variants used by PropsHot *)
Lemma dirty_well_formed : forall D O P scanned deleted, well_formed D -> well_formed P ->
  exists files outs arts, dirty D O P scanned deleted = Some (files, outs, arts) /\
  NoDup files /\ NoDup outs /\ NoDup arts /\
  (forall f, In f files <-> affected D P scanned deleted f) /\
  (forall o, In o outs <-> ~ is_artifact o /\ exists f, affected D P scanned deleted f /\ depends O f o) /\
  (forall o, In o arts <-> is_artifact o /\ exists f, affected D P scanned deleted f /\ depends O f o).
Proof. intros D O P scanned deleted H1 H2. apply dirty_correct; apply Inv_well_formed; assumption. Qed.

Lemma rebuilt_files : forall D O P scans new_placeholders deleted e m, project_graphs D O P ->
  prepare D O P scans new_placeholders deleted = Ret (e, m) ->
  forall f, In f (e_orig e) <-> affected D P (dkeys scans) deleted f /\ ~ In f deleted.
Proof. intros D O P scans np deleted e m HG Hp. destruct (prepared D O P scans np deleted e m HG Hp) as (_ & _ & _ & _ & _ & _ & H & _). exact H. Qed.

Lemma terminates_any : forall build e order m fs0, NoDup order -> (forall f, In f order <-> In f (e_orig e)) ->
  forall (run : nat -> sched) n, run 0 = init_sched e order m fs0 ->
  (forall i, i < n -> step build e (run i) (Running (run (S i)))) -> n <= 3 * length order + 1.
Proof. intros. eapply HotTermProofs.bounded_run; eassumption. Qed.
