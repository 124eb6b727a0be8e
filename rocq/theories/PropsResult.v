(** Properties C13 - C15 and C52: the folder and the graphs a successful rebuild
    leaves behind. *)
From Verif Require Import Base Graph GraphSpec Hot HotSpec HotMain HotExamples HotGraphs HotResultSpec HotResultProofs HotResultExamples HotForgetProofs PropsHot.
From Coq Require Import String ZArith Bool List Relations.
Import ListNotations.
Open Scope list_scope.

(** the concrete case: the project of PropsHot, first built from nothing, then
    rebuilt after logo.png changed *)
Definition ex_stat (s : fs) (p : str) : option fsig := match s p with Some c => Some (Z.of_nat (length c), 1, 1)%Z | None => None end.
Definition ex_files := [lit "logo.png"; lit "part.html"; lit "page.html"; lit "style.css"].
Definition ex_src : fs := fun p => if mem p ex_files then Some p else None.
Definition ex_clean_scans : dict scan_result :=
  [(lit "page.html", mkScan [lit "part.html"] [lit "out/page.html"]); (lit "part.html", mkScan [lit "artifacts/logo"] []);
   (lit "logo.png", mkScan [] [lit "artifacts/logo"]); (lit "style.css", mkScan [] [lit "out/style.css"])].
Definition ex_sigs : dict fsig := map (fun f => (f, (1, 2, 3)%Z)) ex_files.
Definition ex_clean (src : fs) : option outcome := run_rebuild ex_build ex_stat 2 40 empty_graph empty_graph empty_graph ex_clean_scans [] [] ex_sigs [] src
  [lit "style.css"; lit "page.html"; lit "part.html"; lit "logo.png"] ex_files.
Definition ex_first : outcome := match ex_clean ex_src with Some oc => oc | None => mkOutcome (mkEnv [] [] [] [] [] [] [] []) [] ex_src [] [] [] end.
Definition ex_changed (s : fs) : fs := fs_set (lit "logo.png") (lit "new logo") s.
Definition ex_second : option outcome := run_rebuild ex_build ex_stat 1 40 (oc_D ex_first) (oc_O ex_first) (oc_P ex_first) ex_scans []
  [(lit "logo.png", (5, 5, 5)%Z)] [] [] (ex_changed (oc_fs ex_first)) [lit "page.html"; lit "logo.png"; lit "part.html"] (rev ex_files).

(** C13 *)
Theorem C13_rebuild_keeps_up_to_date : forall build stat D O P scans newph changed added deleted fs_old fs0 e l fs1 D1 O1 P1,
  project_graphs D O P -> hot_rebuild build stat D O P scans newph changed added deleted fs0 e l fs1 D1 O1 P1 ->
  reads_declared build -> idempotent build -> writes_out build -> up_to_date build D O fs_old ->
  honest_rebuild D O P scans deleted fs_old fs0 e l D1 O1 -> up_to_date build D1 O1 fs1.
Proof. exact rebuild_keeps_up_to_date. Qed.
Print Assumptions C13_rebuild_keeps_up_to_date.
Theorem C13_incremental_equals_clean : forall build stat D O P scans newph changed added deleted fs_old fs0 e l fs1 D1 O1 P1
    scans' newph' changed' added' fs0' e' l' fs1' D1' O1' P1',
  reads_declared build -> idempotent build -> writes_out build -> deterministic build ->
  project_graphs D O P -> up_to_date build D O fs_old ->
  hot_rebuild build stat D O P scans newph changed added deleted fs0 e l fs1 D1 O1 P1 ->
  honest_rebuild D O P scans deleted fs_old fs0 e l D1 O1 ->
  hot_rebuild build stat empty_graph empty_graph empty_graph scans' newph' changed' added' [] fs0' e' l' fs1' D1' O1' P1' ->
  honest_rebuild empty_graph empty_graph empty_graph scans' [] fs0' fs0' e' l' D1' O1' ->
  (forall p, is_out p = false -> fs0 p = fs0' p) -> (forall f, In f (dkeys D1) <-> In f (dkeys D1')) ->
  forall f o, (depends O1 f o <-> depends O1' f o) /\ (depends O1 f o -> fs1 o = fs1' o).
Proof. exact incremental_clean. Qed.
Print Assumptions C13_incremental_equals_clean.
(** the example builder meets the requirements on builders *)
Example C13_builder : reads_declared ex_build /\ writes_out ex_build /\ deterministic ex_build.
Proof.
  split; [|split].
  - intros f s r s2 H H2. unfold ex_build in *. rewrite (H2 f (or_introl eq_refl)). assumption.
  - intros f s r o H Ho. unfold ex_build in H. destruct (s f); [|discriminate].
    destruct (str_eqb f (lit "logo.png")); [|destruct (str_eqb f (lit "page.html")); [|destruct (str_eqb f (lit "part.html"))]];
      injection H as <-; unfold b_outputs in Ho; cbn in Ho; destruct Ho as [<-|[]] || destruct Ho; vm_compute; reflexivity.
  - intros f s1 s2 r1 r2 H1 H2 E _. unfold ex_build in *. rewrite <- E in H2. rewrite H1 in H2. injection H2 as <-.
    split; [reflexivity|]. intros o Ho. destruct (s1 f); [|discriminate].
    unfold apply_build. unfold b_outputs in Ho. apply in_app_or in Ho. destruct Ho as [Ho|Ho].
    + destruct (str_eqb f (lit "logo.png")); [|destruct (str_eqb f (lit "page.html")); [|destruct (str_eqb f (lit "part.html"))]];
        injection H1 as <-; cbn [b_produced map fst] in Ho; (destruct Ho as [<-|[]] || destruct Ho); cbn [apply_writes b_produced fold_left fst snd];
        unfold fs_set; rewrite str_eqb_refl; reflexivity.
    + exfalso. destruct (str_eqb f (lit "logo.png")); [|destruct (str_eqb f (lit "page.html")); [|destruct (str_eqb f (lit "part.html"))]];
        injection H1 as <-; destruct Ho.
Qed.
Example C13_builder_idempotent : idempotent ex_build.
Proof.
  intros f s r H.
  assert (E : apply_build r s f = s f \/ is_out f = true).
  { destruct (in_dec str_eq_dec f (map fst (b_produced r))) as [Hi|Hi].
    - right. apply (proj1 (proj2 C13_builder) f s r f H). unfold b_outputs. apply in_or_app. auto.
    - left. apply apply_writes_not. assumption. }
  unfold ex_build in H |- *. destruct (s f) as [c|] eqn:Es; [|discriminate].
  destruct (str_eqb f (lit "logo.png")) eqn:E1; [|destruct (str_eqb f (lit "page.html")) eqn:E2; [|destruct (str_eqb f (lit "part.html")) eqn:E3]];
    injection H as <-.
  - apply str_eqb_eq in E1. subst f. exists (mkBuild [] [(lit "artifacts/logo", c)] []).
    cbn [b_children b_produced]. destruct E as [->|E]; [|vm_compute in E; discriminate]. split; [reflexivity|]. split; [reflexivity|]. split; [tauto|].
    intros o x [[= <- <-]|[]]. reflexivity.
  - apply str_eqb_eq in E2. subst f. exists (mkBuild [lit "part.html"] [(lit "out/page.html", c)] []).
    destruct E as [->|E]; [|vm_compute in E; discriminate]. split; [reflexivity|]. split; [reflexivity|]. split; [tauto|].
    intros o x [[= <- <-]|[]]. reflexivity.
  - apply str_eqb_eq in E3. subst f. exists (mkBuild [lit "artifacts/logo"] [] []).
    destruct E as [->|E]; [|vm_compute in E; discriminate]. split; [reflexivity|]. split; [reflexivity|]. split; [tauto|]. intros o x [].
  - exists (mkBuild [] [(lit "out/style.css", c)] []). destruct (str_eqb f (lit "out/style.css")) eqn:E4.
    + unfold apply_build, apply_writes, fs_set. cbn [b_produced fold_left fst snd]. rewrite E4. split; [reflexivity|]. split; [reflexivity|].
      split; [tauto|]. intros o x [[= <- <-]|[]]. reflexivity.
    + unfold apply_build, apply_writes, fs_set. cbn [b_produced fold_left fst snd]. rewrite E4, Es. split; [reflexivity|]. split; [reflexivity|].
      split; [tauto|]. intros o x [[= <- <-]|[]]. reflexivity.
Qed.
Example C13_first_build : hot_rebuild ex_build ex_stat empty_graph empty_graph empty_graph ex_clean_scans [] [] ex_sigs [] ex_src
    (oc_e ex_first) (oc_log ex_first) (oc_fs ex_first) (oc_D ex_first) (oc_O ex_first) (oc_P ex_first) /\
  up_to_date ex_build (oc_D ex_first) (oc_O ex_first) (oc_fs ex_first) /\
  api_children (oc_D ex_first) (lit "part.html") = [lit "logo.png"] /\ oc_fs ex_first (lit "artifacts/logo") = Some (lit "logo.png").
Proof.
  assert (E : ex_clean ex_src = Some ex_first) by (unfold ex_first; destruct (ex_clean ex_src) eqn:E; [reflexivity|vm_compute in E; discriminate]).
  destruct (run_rebuild_sound _ _ _ _ _ _ _ _ _ _ _ _ _ _ _ _ E) as (HR & _). split; [exact HR|].
  split; [apply up_to_date_b_spec; vm_compute; reflexivity|]. vm_compute. auto.
Qed.
Example C13_second_build : exists oc, hot_rebuild ex_build ex_stat (oc_D ex_first) (oc_O ex_first) (oc_P ex_first) ex_scans []
    [(lit "logo.png", (5, 5, 5)%Z)] [] [] (ex_changed (oc_fs ex_first)) (oc_e oc) (oc_log oc) (oc_fs oc) (oc_D oc) (oc_O oc) (oc_P oc) /\
  honest_rebuild (oc_D ex_first) (oc_O ex_first) (oc_P ex_first) ex_scans [] (oc_fs ex_first) (ex_changed (oc_fs ex_first)) (oc_e oc) (oc_log oc) (oc_D oc) (oc_O oc) /\
  built_names oc = [lit "logo.png"; lit "part.html"; lit "page.html"] /\ oc_fs oc (lit "artifacts/logo") = Some (lit "new logo").
Proof.
  destruct ex_second as [oc|] eqn:E; [|vm_compute in E; discriminate]. exists oc.
  destruct (run_rebuild_sound _ _ _ _ _ _ _ _ _ _ _ _ _ _ _ _ E) as (HR & m & Hp). split; [exact HR|].
  assert (EE : ex_second = Some oc) by exact E.
  split.
  { destruct (dirty (oc_D ex_first) (oc_O ex_first) (oc_P ex_first) (dkeys ex_scans) []) as [[[files outs] arts]|] eqn:Ed; [|vm_compute in Ed; discriminate].
    eapply honest_intro; [|exact Hp|exact Ed| |vm_compute; reflexivity|].
    - assert (HG : project_graphs empty_graph empty_graph empty_graph) by (apply (project_graphs_intro [] [] []); reflexivity).
      exact (proj1 (graphs_after _ _ _ _ _ _ _ _ _ _ _ _ _ _ _ _ _ HG (proj1 C13_first_build))).
    - intros p Hp1 _. unfold ex_changed, fs_set. destruct (str_eqb p (lit "logo.png")) eqn:Ep; [|reflexivity]. apply str_eqb_eq in Ep. subst p.
      exfalso. apply Hp1. left. reflexivity.
    - assert (X : match ex_second, dirty (oc_D ex_first) (oc_O ex_first) (oc_P ex_first) (dkeys ex_scans) [] with
                  | Some oc, Some (files, outs, arts) =>
                      forallb (fun f => negb (is_out f)) (dkeys (oc_D ex_first) ++ files) && forallb (fun gs => forallb is_out (s_produces (snd gs))) ex_scans &&
                      agreeing_b (oc_log oc) && read_after_b (oc_e oc) (oc_log oc) && sources_recorded_b (oc_log oc) (oc_D oc) (oc_O oc) &&
                      shared_preserved_b (oc_O ex_first) files (outs ++ arts) (oc_log oc)
                  | _, _ => false
                  end = true) by (vm_compute; reflexivity).
      rewrite EE, Ed in X. exact X. }
  assert (X : match ex_second with Some oc => (built_names oc, oc_fs oc (lit "artifacts/logo")) | None => ([], None) end
              = ([lit "logo.png"; lit "part.html"; lit "page.html"], Some (lit "new logo"))) by (vm_compute; reflexivity).
  rewrite EE in X. injection X as X1 X2. auto.
Qed.

(** C14 *)
Theorem C14_outputs_exist : forall build stat D O P scans newph changed added deleted fs0 e l fs1 D1 O1 P1,
  project_graphs D O P -> hot_rebuild build stat D O P scans newph changed added deleted fs0 e l fs1 D1 O1 P1 ->
  reuses_existing build ->
  (forall f o, depends O f o -> ~ affected D P (dkeys scans) deleted f -> fs0 o <> None) ->
  (forall f o, depends O f o -> ~ affected D P (dkeys scans) deleted f -> dirtied_output D O P (dkeys scans) deleted o -> exists g, reported_by l o g) ->
  forall f o, depends O1 f o -> fs1 o <> None.
Proof. exact outputs_exist. Qed.
Print Assumptions C14_outputs_exist.
Theorem C14_outputs_exist_refuted : exists build stat D O scans changed fs_old fs0 e l fs1 D1 O1 P1 f o,
  project_graphs D O empty_graph /\ up_to_date build D O fs_old /\ (forall p, ~ In p (dkeys scans) -> fs0 p = fs_old p) /\
  reads_declared build /\ idempotent build /\ writes_out build /\ reuses_existing build /\
  hot_rebuild build stat D O empty_graph scans [] changed [] [] fs0 e l fs1 D1 O1 P1 /\
  depends O1 f o /\ fs1 o = None /\ fs0 o <> None.
Proof. exact shared_output_lost. Qed.
Print Assumptions C14_outputs_exist_refuted.
Example C14_case : match ex_second with
  | Some oc => forallb (fun f => forallb (fun o => match oc_fs oc o with Some _ => true | None => false end) (api_children (oc_O oc) f)) (dkeys (oc_O oc)) = true
               /\ length (flat_map (api_children (oc_O oc)) (dkeys (oc_O oc))) = 3
  | None => False
  end.
Proof. vm_compute. auto. Qed.

(** C15 *)
Theorem C15_no_stale_outputs : forall build stat D O P scans newph changed added deleted fs0 e l fs1 D1 O1 P1,
  project_graphs D O P -> hot_rebuild build stat D O P scans newph changed added deleted fs0 e l fs1 D1 O1 P1 ->
  forall p c, fs1 p = Some c -> dirtied_output D O P (dkeys scans) deleted p ->
  (exists f d r, In (f, d, r) l /\ In (p, c) (b_produced r)) \/ (is_artifact p /\ fs0 p = Some c /\ exists g, reported_by l p g).
Proof. exact survivors. Qed.
Print Assumptions C15_no_stale_outputs.
Theorem C15_others_untouched : forall build stat D O P scans newph changed added deleted fs0 e l fs1 D1 O1 P1,
  project_graphs D O P -> hot_rebuild build stat D O P scans newph changed added deleted fs0 e l fs1 D1 O1 P1 ->
  forall p, ~ dirtied_output D O P (dkeys scans) deleted p -> ~ written l p -> fs1 p = fs0 p.
Proof. exact untouched. Qed.
Print Assumptions C15_others_untouched.
Theorem C15_contents : forall build stat D O P scans newph changed added deleted fs0 e l fs1 D1 O1 P1,
  project_graphs D O P -> hot_rebuild build stat D O P scans newph changed added deleted fs0 e l fs1 D1 O1 P1 ->
  forall p c, fs1 p = Some c -> fs0 p = Some c \/ exists f d r, In (f, d, r) l /\ In (p, c) (b_produced r).
Proof. exact contents. Qed.
Print Assumptions C15_contents.
(** style.css deleted: its output disappears, the others are left alone *)
Example C15_case : match run_rebuild ex_build ex_stat 1 40 (oc_D ex_first) (oc_O ex_first) (oc_P ex_first) [] [] [] [] [lit "style.css"]
    (fs_del (lit "style.css") (oc_fs ex_first)) [] [lit "logo.png"; lit "part.html"; lit "page.html"] with
  | Some oc => (oc_fs oc (lit "out/style.css"), oc_fs oc (lit "out/page.html"), dkeys (oc_O oc))
               = (None, Some (lit "page.html"), [lit "logo.png"; lit "part.html"; lit "page.html"; lit "artifacts/logo"; lit "out/page.html"])
  | None => False
  end.
Proof. vm_compute. reflexivity. Qed.

(** C52 *)
Theorem C52_stored_graphs_stay_valid : forall build stat D O P scans newph changed added deleted fs0 e l fs1 D1 O1 P1,
  project_graphs D O P -> hot_rebuild build stat D O P scans newph changed added deleted fs0 e l fs1 D1 O1 P1 ->
  project_graphs D1 O1 P1 /\ acyclic D1 /\ acyclic O1 /\ acyclic P1.
Proof. exact graphs_valid. Qed.
Print Assumptions C52_stored_graphs_stay_valid.
Theorem C52_stored_inputs : forall build stat D O P scans newph changed added deleted fs0 e l fs1 D1 O1 P1,
  project_graphs D O P -> hot_rebuild build stat D O P scans newph changed added deleted fs0 e l fs1 D1 O1 P1 ->
  (forall f, In f (dkeys D1) <-> (affected D P (dkeys scans) deleted f \/ In f (dkeys D)) /\ ~ In f deleted) /\
  forall f, In f (dkeys D1) -> exists sig, api_meta D1 f = Some sig /\ api_meta O1 f = Some sig /\
    (dget f changed = Some sig \/ (dget f changed = None /\ dget f added = Some sig) \/
     (dget f changed = None /\ dget f added = None /\ api_meta D f = Some sig)).
Proof. exact stored_inputs. Qed.
Print Assumptions C52_stored_inputs.
Theorem C52_stored_edges : forall build stat D O P scans newph changed added deleted fs0 e l fs1 D1 O1 P1,
  project_graphs D O P -> hot_rebuild build stat D O P scans newph changed added deleted fs0 e l fs1 D1 O1 P1 ->
  (forall f, In f (dkeys D1) -> affected D P (dkeys scans) deleted f -> exists d r, In (f, d, r) l) /\
  (forall f d r, In (f, d, r) l -> api_children O1 f = b_outputs r /\
     ((forall g sc o, In (g, sc) scans -> In o (s_produces sc) -> is_out o = true) -> recorded (known_producer O scans) f (b_children r) (api_children D1 f))) /\
  (forall f, In f (dkeys D1) -> ~ affected D P (dkeys scans) deleted f ->
     api_children D1 f = api_children D f /\ api_children O1 f = api_children O f) /\
  (forall f o, depends O1 f o -> In f (dkeys D1)).
Proof. exact stored_edges. Qed.
Print Assumptions C52_stored_edges.
Theorem C52_stored_placeholders : forall build stat D O P scans newph changed added deleted fs0 e l fs1 D1 O1 P1,
  project_graphs D O P -> hot_rebuild build stat D O P scans newph changed added deleted fs0 e l fs1 D1 O1 P1 ->
  (forall a b, depends P1 a b -> In (b, a) newph \/ depends P a b) /\
  (forall a b, In (b, a) newph -> depends P1 a b) /\
  (forall a b, depends P a b -> In a (dkeys D1) -> In b (dkeys D1) -> exists a', depends P a' b /\ depends P1 a' b).
Proof. exact stored_placeholders. Qed.
Print Assumptions C52_stored_placeholders.
(** an output whose producers are all deleted or rebuilt, one of them deleted,
    and which no build reported any more, is forgotten *)
Theorem C52_deleted_outputs_forgotten : forall build stat D O P scans newph changed added deleted fs0 e l fs1 D1 O1 P1,
  project_graphs D O P -> hot_rebuild build stat D O P scans newph changed added deleted fs0 e l fs1 D1 O1 P1 ->
  forall o p, depends O p o -> In p deleted -> (forall q, depends O q o -> affected D P (dkeys scans) deleted q) ->
  ~ (exists g, reported_by l o g) -> ~ In o (dkeys D1) -> ~ In o (dkeys O1).
Proof. exact outputs_forgotten. Qed.
Print Assumptions C52_deleted_outputs_forgotten.
Example C52_case : match ex_second with
  | Some oc => (api_children (oc_D oc) (lit "part.html"), api_meta (oc_D oc) (lit "logo.png"), api_meta (oc_O oc) (lit "style.css"))
               = ([lit "logo.png"], Some (5, 5, 5)%Z, Some (1, 2, 3)%Z)
  | None => False
  end.
Proof. vm_compute. reflexivity. Qed.
