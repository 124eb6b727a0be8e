(** A build command can start whatever the order in which the sources are listed. *)
From Verif Require Import Base Graph GraphSpec GraphProofs PyStr PyPath PyNorm PathSpec Js Builder JsYield JsManip JsManipSpec Handlers Hot HotSpec HotDirtyProofs HotSchedProofs HotSchedMain HotTermProofs HotMain HotGraphs HotGraphsProofs HotResultSpec HotResultProofs HotWantSpec HotWantProofs
  Cold ColdSpec ColdProofs ColdMain ColdHistory Project ProjectSpec ProjectPaths ProjectEdit ProjectFiles ProjectMain ProjectHistory ProjectSite ProjectSiteProofs ProjectOrderFiles ProjectOrderSpec ProjectOrder ProjectOrderFirst ProjectOrderSite.
From Coq Require Import String ZArith NArith Bool List Relations Lia.
Import ListNotations.
Open Scope list_scope.

Definition findable (O : graph) (deleted : list str) (m : dict str) (d : str) : Prop :=
  is_out d = false \/ In d (dkeys m) \/ exists ps p, get_parents O d = Ret ps /\ first_alive ps deleted = Some p.
Lemma deps_find O deleted deps : forall m acc, (exists R, reinterpret_deps O deleted deps m acc = Ret R) <-> forall d, In d deps -> findable O deleted m d.
Proof.
  induction deps as [|d r IH]; intros m acc; cbn [reinterpret_deps]; [split; [intros _ d []|eauto]|].
  assert (G : forall p, findable O deleted m d -> forall x, findable O deleted (dset d p m) x <-> findable O deleted m x).
  { intros p F x. unfold findable at 1 2. rewrite In_dkeys_dset. split; [intros [H|[[->|H]|H]]; auto|tauto]. }
  destruct (is_out d) eqn:Eo; cbn [negb].
  - destruct (dget d m) as [x|] eqn:E.
    + rewrite IH. split; intros H y Hy; [destruct Hy as [<-|Hy]; [right; left; eapply dget_Some_key; exact E|auto]|apply H; right; exact Hy].
    + destruct (get_parents O d) as [ps|] eqn:Ep.
      * destruct (first_alive ps deleted) as [p|] eqn:Ea.
        -- assert (F : findable O deleted m d) by (right; right; exists ps, p; auto). rewrite IH. split; intros H y Hy; [destruct Hy as [<-|Hy]; [exact F|apply (G p F), H, Hy]|apply (G p F), H; right; exact Hy].
        -- split; [intros (R & X); discriminate|]. intros H. exfalso. destruct (H d (or_introl eq_refl)) as [X|[X|(ps' & p & X & Y)]]; [congruence|apply In_dkeys_dget in X; destruct X; congruence|rewrite Ep in X; injection X as <-; congruence].
      * split; [intros (R & X); discriminate|]. intros H. exfalso. destruct (H d (or_introl eq_refl)) as [X|[X|(ps' & p & X & Y)]]; [congruence|apply In_dkeys_dget in X; destruct X; congruence|congruence].
  - rewrite IH. split; intros H y Hy; [destruct Hy as [<-|Hy]; [left; exact Eo|auto]|apply H; right; exact Hy].
Qed.
Lemma deps_kept O deleted deps : forall m acc m' acc', reinterpret_deps O deleted deps m acc = Ret (m', acc') -> forall x, findable O deleted m' x <-> findable O deleted m x.
Proof.
  induction deps as [|d r IH]; intros m acc m' acc' H x; cbn [reinterpret_deps] in H; [injection H as <- _; reflexivity|].
  destruct (is_out d) eqn:Eo; cbn [negb] in H; [|eapply IH; exact H]. destruct (dget d m) as [y|] eqn:E; [eapply IH; exact H|]. destruct (get_parents O d) as [ps|] eqn:Ep; [|discriminate]. destruct (first_alive ps deleted) as [p|] eqn:Ea; [|discriminate].
  rewrite (IH _ _ _ _ H). assert (F : findable O deleted m d) by (right; right; exists ps, p; auto). unfold findable at 1 2. rewrite In_dkeys_dset. split; [intros [X|[[->|X]|X]]; auto|tauto].
Qed.
Lemma scans_find O deleted scans : forall m, (exists R, reinterpret_scans O deleted scans m = Ret R) <-> forall f sc d, In (f, sc) scans -> In d (s_deps sc) -> findable O deleted m d.
Proof.
  induction scans as [|[f sc] r IH]; intros m; cbn [reinterpret_scans]; [split; [intros _ f sc d []|eauto]|]. pose proof (deps_find O deleted (s_deps sc) m []) as HD.
  destruct (reinterpret_deps O deleted (s_deps sc) m []) as [[m1 ds]|x] eqn:E.
  - pose proof (deps_kept _ _ _ _ _ _ _ E) as HK. specialize (IH m1). assert (Hd : forall d, In d (s_deps sc) -> findable O deleted m d) by (apply HD; eauto). split.
    + intros (R & X) g s2 d Hg Hs. destruct Hg as [Hg|Hg]; [injection Hg as <- <-; auto|]. apply HK. refine (proj1 IH _ g s2 d Hg Hs). destruct (reinterpret_scans O deleted r m1) as [y|]; [eauto|discriminate].
    + intros H. destruct (proj2 IH) as ((m2 & r2) & X); [intros g s2 d Hg Hs; apply HK; eapply H; [right; exact Hg|exact Hs]|]. rewrite X. eauto.
  - split; [intros (R & X); discriminate|]. intros H. exfalso. destruct (proj2 HD) as (R & X); [intros d Hd; eapply H; [left; reflexivity|exact Hd]|]. discriminate.
Qed.
Lemma first_alive_same ps l1 l2 : (forall x, In x l1 <-> In x l2) -> first_alive ps l1 = first_alive ps l2.
Proof.
  intros H. induction ps as [|p r IH]; [reflexivity|]. cbn [first_alive]. rewrite IH. assert (E : mem p l1 = mem p l2); [|rewrite E; reflexivity].
  destruct (mem p l2) eqn:E; [apply mem_In, H, mem_In, E|]. destruct (mem p l1) eqn:E1; [|reflexivity]. apply mem_In, H, mem_In in E1. congruence.
Qed.
Lemma prepare_same D O P scans scans2 newph newph2 deleted deleted2 R : project_graphs D O P -> (forall x, In x scans2 <-> In x scans) -> (forall x, In x deleted2 <-> In x deleted) ->
  prepare D O P scans newph deleted = Ret R -> exists e m, prepare D O P scans2 newph2 deleted2 = Ret (e, m).
Proof.
  intros (W1 & W2 & W3 & W4 & W5) Hs Hd H. unfold prepare in *. pose proof (scans_find O deleted scans (produces_mapping scans)) as F. destruct (reinterpret_scans O deleted scans (produces_mapping scans)) as [y|] eqn:E; [|discriminate].
  destruct (proj2 (scans_find O deleted2 scans2 (produces_mapping scans2))) as ((m & sc') & X).
  { intros f sc d Hf Hk. apply Hs in Hf. destruct (proj1 F (ex_intro _ y eq_refl) f sc d Hf Hk) as [Z|[Z|(ps & p & Z1 & Z2)]]; [left; exact Z| |].
    - right. left. apply In_dkeys_dget in Z. destruct Z as (x & Z). apply produces_mapping_good in Z. destruct Z as (s2 & Z1 & Z2). eapply produces_mapping_keys; [apply Hs; exact Z1|exact Z2].
    - right. right. exists ps, p. split; [exact Z1|]. rewrite <- Z2. apply first_alive_same. exact Hd. }
  rewrite X. destruct (dirty_correct D O P (proj2 (Inv_well_formed D) W1) (proj2 (Inv_well_formed P) W3) (dkeys scans2) deleted2) as (a & b & d & Y & _). rewrite Y. eauto.
Qed.
Lemma scan_batch_total scan files s : (forall f, In f files -> exists x, scan f s = Some x) -> forall acc, exists b, scan_batch scan files s acc = Ret b.
Proof. induction files as [|f r IH]; intros H acc; cbn [scan_batch]; [eauto|]. destruct (H f (or_introl eq_refl)) as (x & ->). apply IH. intros g Hg. apply H. right. exact Hg. Qed.
Lemma scan_loop_total scan stat t : (forall f s x, scan f s = Some x -> f_placeholders x = []) -> (forall f, In f (sc_next t) -> exists x, scan f (sc_fs t) = Some x) -> exists R, scan_loop scan stat 1 t [] = Ret R.
Proof.
  intros Hp H. cbn [scan_loop]. destruct (sc_next t) as [|f r] eqn:E; [eauto|]. destruct (scan_batch_total scan (f :: r) (sc_fs t) H []) as (b & Eb). rewrite Eb. destruct (scan_batch_ok scan stat _ _ _ _ Eb) as (B1 & _ & B3). specialize (B3 (NoDup_nil _)).
  rewrite place_nothing; [cbn [scan_loop sc_next]; eauto|]. intros g x Hi. apply (NoDup_dget _ _ _ B3) in Hi. destruct (B1 g x Hi) as [(_ & Y)|Y]; [eapply Hp; exact Y|discriminate Y].
Qed.

Section Site.
Context (sha : str -> str) (c : constants) (K : setting) (stat : fs -> str -> option fsig).
Context (Hstat : stat_ok stat) (Hdet : stat_detects stat) (Hconst : in_src (c_relpath c) = true) (Hcwd : starts_with (lit "/") (k_cwd K) = true) (Hcss : exists r, k_css K = lit "src/public/" ++ r /\ starts_with (lit "/") r = false).
Notation build := (fun dev => file_build sha c dev K).
Notation scan := (scan_no_placeholders c K).
Notation site := (site sha c K stat).
Notation builds := (builds sha c K stat).
Notation kept := (kept sha c K stat).
Notation no_placeholders := (no_placeholders c K).

Lemma site_plain dev last p : site dev last p -> forall a b, ~ depends (p_P p) a b.
Proof.
  intros H. induction H as [dev s Hs|dev last p s H IH Hw|dev last p dev' r p1 H IH Hn HB|dev last p D O P H IH W1 W2 W3 E1 E2 E3]; [intros a b X; exact X|exact IH| |intros a b X; apply (same_depends _ _ E3) in X; exact (IH a b X)].
  inversion HB as [|files changed added deleted changed1 mode1 fl t full e1 l fs1 D1 O1 P1 Hn1 Hl Hc Hm Hne Hs Hr]; subst; [exact IH|]. cbn [p_P].
  pose proof (site_kept sha c K stat Hstat Hdet Hconst Hcwd Hcss _ _ _ H) as HK. destruct (started sha c K stat Hstat Hdet Hconst dev' dev last p HK Hn files changed added changed1 deleted mode1 fl t full Hn1 Hl Hc Hm Hs) as (A1 & A2 & A3 & _). rewrite A2 in Hr.
  destruct HK as ((HG & _) & _). destruct (graphs_after _ _ _ _ _ _ _ _ _ _ _ _ _ _ _ _ _ HG Hr) as (_ & _ & _ & _ & _ & _ & _ & _ & _ & X & _). intros a b Y. destruct (X a b Y) as [[]|Z]. eapply IH; exact Z.
Qed.
Lemma mode_same_end constants dev sig s mode changed added changed1 mode1 changed2 added2 changed12 mode2 :
  mode_step constants dev sig s mode changed added = Ret (changed1, mode1) -> mode_step constants dev sig s mode changed2 added2 = Ret (changed12, mode2) -> mode2 = mode1.
Proof.
  unfold mode_step. destruct (s constants); [|congruence]. destruct (opt_str_eqb _ _); [congruence|]. destruct (sig constants); destruct (negb _ && negb _); destruct (negb _ && negb _); congruence.
Qed.
Lemma lists_stat p files : (forall f, In f files <-> in_src f = true /\ p_fs p f <> None) -> forall f, In f files -> stat (p_fs p) f <> None.
Proof. intros H f Hf X. apply Hstat in X. apply H in Hf. tauto. Qed.

Section Two.
Context (dev dev0 : bool) (last : fs) (p : project) (HK : kept dev0 last p) (Hnames : forall f, in_src f = true -> p_fs p f <> None -> source_name f) (HP : forall a b, ~ depends (p_P p) a b).
Context (w : run) (p1 : project) (HB : builds dev p (Some w) p1).
Notation start := (started sha c K stat Hstat Hdet Hconst dev dev0 last p HK Hnames).
(** the command can start *)
Theorem starts files : NoDup files -> (forall f, In f files <-> in_src f = true /\ p_fs p f <> None) ->
  exists e, (forall f, In f (e_orig e) <-> exists d r, In (f, d, r) (run_log w)) /\ forall order, NoDup order -> (forall f, In f order <-> In f (e_orig e)) -> exists s, building (build dev) scan stat (c_relpath c) dev p files order e s.
Proof.
  intros Hn2 Hl2. inversion HB as [|files1 changed added deleted changed1 mode1 fl t full e1 l fs1 D1 O1 P1 Hn Hl Hc Hm Hne Hs Hr]; subst w p1. cbn [run_log].
  destruct (start files1 changed added changed1 deleted mode1 fl t full Hn Hl Hc Hm Hs) as (A1 & A2 & A3 & A4 & A5 & A6 & A7 & A8).
  pose proof HK as ((HG & _) & _). pose proof HG as (W1 & _).
  destruct (classify_correct (p_D p) (stat (p_fs p)) files (proj1 (proj2 (Inv_well_formed _) W1)) Hn2 (lists_stat p files Hl2)) as (changed2 & added2 & deleted2 & Hc2 & HC2).
  assert (Hm2 : exists changed12 mode2, mode_step (c_relpath c) dev (stat (p_fs p)) (p_fs p) (p_mode p) changed2 added2 = Ret (changed12, mode2)).
  { unfold mode_step. destruct (p_fs p (c_relpath c)) eqn:E; [|eauto]. destruct (opt_str_eqb _ _); [eauto|]. destruct (negb _ && negb _); [|eauto]. destruct (stat (p_fs p) (c_relpath c)) eqn:Es; [eauto|]. apply Hstat in Es. congruence. }
  destruct Hm2 as (changed12 & mode2 & Hm2).
  assert (Hdue : forall f, In f (dkeys changed12 ++ dkeys added2) -> due c stat dev p f).
  { intros f Hf. destruct HC2 as (C1 & C2 & C3 & _). apply in_app_or in Hf. unfold due. destruct Hf as [Hf|Hf].
    - destruct (mode_step_cases _ _ _ _ _ _ _ _ _ Hm2) as (_ & [(E & _)|(g & d & M1 & M2 & M3 & E & _)]); rewrite E in Hf; [|apply In_dkeys_dset in Hf; destruct Hf as [->|Hf]].
      + apply In_dkeys_dget in Hf. destruct Hf as (g & Hg). apply C1 in Hg. destruct Hg as (G1 & G2 & old & G3 & G4). apply Hl2 in G1. split; [tauto|]. split; [tauto|]. right. left. exists old. split; [exact G3|congruence].
      + split; [exact Hconst|]. split; [congruence|]. right. right. auto.
      + apply In_dkeys_dget in Hf. destruct Hf as (g' & Hg). apply C1 in Hg. destruct Hg as (G1 & G2 & old & G3 & G4). apply Hl2 in G1. split; [tauto|]. split; [tauto|]. right. left. exists old. split; [exact G3|congruence].
    - apply In_dkeys_dget in Hf. destruct Hf as (g & Hg). apply C2 in Hg. destruct Hg as (G1 & G2 & G3). apply Hl2 in G1. tauto. }
  destruct (scan_loop_total scan stat (mkScanning (p_fs p) (dkeys changed12 ++ dkeys added2) [] added2) no_placeholders) as ((t2 & full2) & Hs2).
  { cbn [sc_next sc_fs]. intros f Hf. apply Hdue, A4 in Hf. unfold dkeys in Hf. apply in_map_iff in Hf. destruct Hf as ((g & sc) & E & Hi). cbn in E. subst g. apply A6 in Hi. destruct Hi as (_ & Hi). exists (mkFull sc []). unfold scan_no_placeholders. rewrite Hi. reflexivity. }
  destruct (start files changed2 added2 changed12 deleted2 mode2 1 t2 full2 Hn2 Hl2 Hc2 Hm2 Hs2) as (B1 & B2 & B3 & B4 & B5 & B6 & _ & _).
  assert (E1 : forall x, In x (scans_of full2) <-> In x (scans_of full)) by (intros [f sc]; rewrite A6, B6; reflexivity).
  assert (E2 : forall x, In x deleted2 <-> In x deleted) by (intros f; rewrite A5, B5; reflexivity).
  assert (Hprep : exists R, prepare (p_D p) (p_O p) (p_P p) (scans_of full) (sc_new t) deleted = Ret R) by (inversion Hr; eauto). destruct Hprep as (R & Hprep).
  destruct (prepare_same _ _ _ _ (scans_of full2) _ (sc_new t2) _ deleted2 _ HG E1 E2 Hprep) as (e & m & Hp2).
  exists e. split.
  - intros f. destruct (prepared _ _ _ _ _ _ _ _ HG Hp2) as (_ & _ & _ & _ & _ & _ & HA & _). rewrite HA. destruct (unfolded _ _ _ _ _ _ _ _ _ _ _ _ _ _ _ _ _ HG Hr) as (st & _ & _ & _ & S4 & _).
    assert (X : affected (p_D p) (p_P p) (dkeys (scans_of full2)) deleted2 f <-> affected (p_D p) (p_P p) (dkeys (scans_of full)) deleted f).
    { unfold affected. split; intros (x & H & Q); exists x; (split; [|exact Q]); rewrite ?A4, ?B4, ?A5, ?B5 in *; exact H. }
    rewrite X, E2. specialize (S4 f). unfold hit in S4. rewrite <- S4. split; [apply names_in|intros (d & r & Hi); eapply in_names; exact Hi].
  - intros order Ho1 Ho2. exists (init_sched e order m (sc_fs t2)). apply (under_way _ _ _ _ _ _ _ _ changed2 added2 deleted2 changed12 mode2 1 t2 full2 e m); try assumption; [|apply steps_refl].
    assert (Z : (exists f, In f (dkeys (scans_of full))) \/ exists f, In f deleted).
    { destruct Hne as [Y|[Y|Y]]; [left|left|right].
      - destruct changed1 as [|[f g] r]; [tauto|]. exists f. rewrite scans_of_keys. apply (proj2 (scan_round_keys _ _ _ _ _ _ no_placeholders Hs)). cbn [sc_next]. apply in_or_app. left. left. reflexivity.
      - destruct added as [|[f g] r]; [tauto|]. exists f. rewrite scans_of_keys. apply (proj2 (scan_round_keys _ _ _ _ _ _ no_placeholders Hs)). cbn [sc_next]. apply in_or_app. right. left. reflexivity.
      - destruct deleted as [|f r]; [tauto|]. exists f. left. reflexivity. }
    destruct Z as [(f & Z)|(f & Z)].
    + rewrite A4, <- B4, scans_of_keys in Z. apply (proj2 (scan_round_keys _ _ _ _ _ _ no_placeholders Hs2)) in Z. cbn [sc_next] in Z. apply in_app_or in Z. destruct Z as [Z|Z]; [left|right; left]; intros X; rewrite X in Z; destruct Z.
    + apply E2 in Z. right. right. intros X. rewrite X in Z. destruct Z.
Qed.

Section Runs.
Context (HF : foreseen (p_D p) (run_scans w) (run_log w) (p_D p1)).
Theorem not_late : ~ fails_late (build dev) scan stat (c_relpath c) dev p.
Proof.
  intros [files2 changed2 added2 deleted2 changed12 mode2 fl2 t2 full2 e m order s Hn2 Hl2 Hc2 Hm2 Hne2 Hs2 Hp2 Ho1 Ho2 Hst Hfin HL].
  inversion HB as [|files changed added deleted changed1 mode1 fl t full e1 l fs1 D1 O1 P1 Hn Hl Hc Hm Hne Hs Hr]; subst w p1. cbn [p_fs p_D run_scans run_log] in *.
  destruct (start files changed added changed1 deleted mode1 fl t full Hn Hl Hc Hm Hs) as (A1 & A2 & A3 & A4 & A5 & A6 & A7 & A8).
  destruct (start files2 changed2 added2 changed12 deleted2 mode2 fl2 t2 full2 Hn2 Hl2 Hc2 Hm2 Hs2) as (B1 & B2 & B3 & B4 & B5 & B6 & _ & _).
  rewrite A1, A2, A3 in Hr. rewrite B1 in Hst. rewrite B2 in Hp2, HL. rewrite B3 in HL. pose proof HK as ((HG & _ & Hcor & Hall & _) & _).
  assert (E1 : forall x, In x (scans_of full2) <-> In x (scans_of full)) by (intros [f sc]; rewrite A6, B6; reflexivity).
  assert (E2 : forall x, In x deleted2 <-> In x deleted) by (intros f; rewrite A5, B5; reflexivity).
  assert (Hsig : forall f, In f (dkeys (scans_of full2)) -> In f (dkeys changed12) \/ In f (dkeys added2)).
  { intros f Hf. rewrite scans_of_keys in Hf. apply (proj2 (scan_round_keys _ _ _ _ _ _ no_placeholders Hs2)) in Hf. apply in_app_or. exact Hf. }
  destruct (end_graphs sha c dev dev0 K Hcwd Hcss stat _ _ _ _ _ _ _ _ _ e1 l fs1 D1 O1 P1 HG Hr last Hcor Hall A7 A8 HF _ _ _ E1 E2 e m order Hp2 Ho1 Ho2 changed12 added2 s (fun d q => proj1 (proj2 Hstat d q)) HP eq_refl Hsig Hst Hfin) as (X1 & X2).
  rewrite X1 in HL. cbn [unlink_all] in HL. destruct HL as [HL|(fs2 & inputs & x & L1 & L2 & L3 & L4)]; [discriminate|]. injection L1 as <-. destruct (X2 inputs L2 L3) as (D2 & O2 & P2 & Y). congruence.
Qed.
Theorem ends files2 order e s : building (build dev) scan stat (c_relpath c) dev p files2 order e s -> finished s ->
  exists w2 p2, builds dev p (Some w2) p2 /\ run_env w2 = e /\ run_log w2 = log s /\ (forall q, p_fs p2 q = p_fs p1 q) /\ p_mode p2 = p_mode p1 /\
    (forall f, In f (dkeys (p_D p2)) <-> In f (dkeys (p_D p1))) /\ (forall f x, depends (p_D p2) f x <-> depends (p_D p1) f x) /\ (forall f o, depends (p_O p2) f o <-> depends (p_O p1) f o).
Proof.
  intros HW Hfin. inversion HB as [|files changed added deleted changed1 mode1 fl t full e1 l fs1 D1 O1 P1 Hn Hl Hc Hm Hne Hs Hr]; subst w p1.
  destruct HW as [changed2 added2 deleted2 changed12 mode2 fl2 t2 full2 e m s Hn2 Hl2 Hc2 Hm2 Hne2 Hs2 Hp2 Ho1 Ho2 Hst]. cbn [p_fs p_D p_O p_mode run_scans run_log run_env] in *.
  destruct (start files changed added changed1 deleted mode1 fl t full Hn Hl Hc Hm Hs) as (A1 & A2 & A3 & A4 & A5 & A6 & A7 & A8).
  destruct (start files2 changed2 added2 changed12 deleted2 mode2 fl2 t2 full2 Hn2 Hl2 Hc2 Hm2 Hs2) as (B1 & B2 & B3 & B4 & B5 & B6 & _ & _).
  rewrite A1, A2, A3 in Hr. rewrite B1 in Hst. rewrite B2 in Hp2. pose proof HK as ((HG & _ & Hcor & Hall & _) & _).
  assert (E1 : forall x, In x (scans_of full2) <-> In x (scans_of full)) by (intros [f sc]; rewrite A6, B6; reflexivity).
  assert (E2 : forall x, In x deleted2 <-> In x deleted) by (intros f; rewrite A5, B5; reflexivity).
  assert (Hsig : forall f, In f (dkeys (scans_of full2)) -> In f (dkeys changed12) \/ In f (dkeys added2)).
  { intros f Hf. rewrite scans_of_keys in Hf. apply (proj2 (scan_round_keys _ _ _ _ _ _ no_placeholders Hs2)) in Hf. apply in_app_or. exact Hf. }
  destruct (end_graphs sha c dev dev0 K Hcwd Hcss stat _ _ _ _ _ _ _ _ _ e1 l fs1 D1 O1 P1 HG Hr last Hcor Hall A7 A8 HF _ _ _ E1 E2 e m order Hp2 Ho1 Ho2 changed12 added2 s (fun d q => proj1 (proj2 Hstat d q)) HP eq_refl Hsig Hst Hfin) as (X1 & X2).
  set (inputs := nodup str_eq_dec (filter (fun f => negb (mem f deleted2)) (dkeys (results s) ++ dkeys (p_D p)))).
  assert (Hin : forall f, In f inputs <-> (In f (dkeys (results s)) \/ In f (dkeys (p_D p))) /\ ~ In f deleted2).
  { intros f. unfold inputs. rewrite nodup_In, filter_In, in_app_iff, negb_true_iff, mem_false. reflexivity. }
  destruct (X2 inputs (NoDup_nodup _ _) Hin) as (D2 & O2 & P2 & Y).
  assert (HR2 : hot_rebuild (build dev) stat (p_D p) (p_O p) (p_P p) (scans_of full2) [] changed12 added2 deleted2 (p_fs p) e (log s) (disk s) D2 O2 P2).
  { apply (hot_done (build dev) stat _ _ _ _ _ _ _ _ _ e m order s (disk s) inputs D2 O2 P2); try assumption; [rewrite X1; reflexivity|apply NoDup_nodup]. }
  exists (mkRun (scans_of full2) (sc_new t2) deleted2 e (log s)), (mkProject (disk s) mode2 D2 O2 P2). cbn [run_env run_log p_fs p_mode p_D p_O].
  split; [apply (cold_hot _ _ _ _ _ _ files2 changed2 added2 deleted2 changed12 mode2 fl2 t2 full2 e (log s) (disk s) D2 O2 P2); try assumption; rewrite B1, B2, B3; exact HR2|].
  split; [reflexivity|]. split; [reflexivity|].
  split; [intros q; exact (end_same sha c dev dev0 K Hcwd Hcss stat _ _ _ _ _ _ _ _ _ e1 l fs1 D1 O1 P1 HG Hr last Hcor Hall A7 A8 HF _ _ _ E1 E2 e m order Hp2 Ho1 Ho2 s q Hst Hfin)|].
  split; [eapply mode_same_end; eassumption|].
  exact (end_same_graphs sha c dev dev0 K Hcwd Hcss stat _ _ _ _ _ _ _ _ _ e1 l fs1 D1 O1 P1 HG Hr last Hcor Hall A7 A8 HF _ _ _ E1 E2 e m order Hp2 Ho1 Ho2 changed12 added2 (log s) (disk s) D2 O2 P2 HR2 s Hst Hfin eq_refl).
Qed.
End Runs.
End Two.
End Site.
